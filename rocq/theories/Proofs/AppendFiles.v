(** The files an append writes are those listed in its manifests. *)
From Verif.Model Require Import System.
From Verif.Spec Require Import Logical Layout Accounts Api.
From Verif.Proofs Require Import Lib World Resolve AppendSpec SchemaFacts ReadSpec Wf OpSpec SysInv Durable.

Definition pc {A} (P : world → Prop) (m : M A) (Q : A → world → Prop) : Prop :=
  ∀ w w' a, P w → m w = (w', Ok a) → Q a w'.
Lemma pc_ret {A} (P : world → Prop) (a : A) (Q : A → world → Prop) : (∀ w, P w → Q a w) → pc P (ret a) Q.
Proof. intros HQ w w' a' HP [= <- <-]. auto. Qed.
Lemma pc_bind {A B} P (m : M A) Q (k : A → M B) R : pc P m Q → (∀ a, pc (Q a) (k a) R) → pc P (bind m k) R.
Proof.
  intros Hm Hk w w' b HP. unfold bind. destruct (m w) as [w1 [a|e]] eqn:He; [|done]. intros H.
  eapply Hk; [|exact H]. by eapply Hm.
Qed.
Lemma pc_lift {A B} P (r : res A) (k : A → M B) R : (∀ a, r = Ok a → pc P (k a) R) → pc P (bind (lift r) k) R.
Proof. intros Hk w w' b HP. unfold bind, lift. destruct r as [a|]; [|done]. by apply Hk. Qed.
Lemma pc_put {A} P p f (k : M A) R : pc (fun w' => ∃ w, P w ∧ w' = put_world w p f) k R → pc P (put_file p f ;; k) R.
Proof. intros Hk w w' b HP H. eapply Hk; [|exact H]. eexists. split; [exact HP|]. done. Qed.
Lemma pc_new {A} P kd (k : path → M A) R :
  (∀ u, pc (fun w' => ∃ w, P w ∧ u = w_next w ∧ w' = bump_world w) (k (PGen kd u)) R) → pc P (let! p := new_path kd in k p) R.
Proof. intros Hk w w' b HP H. eapply (Hk (w_next w)); [|exact H]. eexists. by split_and!. Qed.
Lemma pc_pre {A} (P P' : world → Prop) (m : M A) Q : (∀ w, P w → P' w) → pc P' m Q → pc P m Q.
Proof. intros HP Hm w w' a H. by apply Hm, HP. Qed.
Lemma pc_post {A} P (m : M A) (Q Q' : A → world → Prop) : (∀ a w, Q a w → Q' a w) → pc P m Q → pc P m Q'.
Proof. intros HQ Hm w w' a H He. by eapply HQ, Hm. Qed.

Section files.
Context (E : env) (O : fopts) (s : schema) (lo : N).

Definition idx_ok (l : list path) (w : world) : Prop :=
  (∀ u, (lo ≤ u)%N → is_Some (w_fs w !! PGen KIndex u) → PGen KIndex u ∈ l)
  ∧ NoDup l ∧ (∀ p, p ∈ l → ∃ u, p = PGen KIndex u ∧ (lo ≤ u < w_next w)%N).
Definition rec_ok (recs : gmap string rec_writer) (l : list path) (w : world) : Prop :=
  (∀ f u, (lo ≤ u)%N → is_Some (w_fs w !! PGen (KRecord f) u) →
     (∃ rw, recs !! f = Some rw ∧ rw_path rw = PGen (KRecord f) u) ∨ PGen (KRecord f) u ∈ l)
  ∧ NoDup l ∧ (∀ p, p ∈ l → ∃ f u, p = PGen (KRecord f) u ∧ (lo ≤ u < w_next w)%N)
  ∧ (∀ f rw, recs !! f = Some rw → rw_path rw ∉ l ∧ ∃ u, rw_path rw = PGen (KRecord f) u ∧ (lo ≤ u < w_next w)%N).
Definition idx_of (st : append_st) : list path := (mr_path <$> as_man st) ++ option_list (fst <$> as_writer st).
Definition recs_in (fs : list (string * Z)) (st : append_st) : Prop :=
  (∀ f rw, as_recs st !! f = Some rw → f ∈ fs.*1) ∧ as_man_cached st = [].
Definition finv (st : append_st) (w : world) : Prop :=
  (lo ≤ w_next w)%N ∧ idx_ok (idx_of st) w ∧ rec_ok (as_recs st) (rm_path <$> as_rman st) w ∧ recs_in (rec_fields s) st.

Lemma idx_ok_bump l w : idx_ok l w → idx_ok l (bump_world w).
Proof. intros (H1&H2&H3). split_and!; [done|done|]. intros p (u&->&?)%H3. exists u. cbn. split; [done|lia]. Qed.
Lemma idx_ok_put l w p f : idx_ok l w → (∀ u, p = PGen KIndex u → p ∈ l) → idx_ok l (put_world w p f).
Proof.
  intros (H1&H2&H3) Hp. split_and!; [|done|done]. intros u Hu Hs. cbn in Hs.
  destruct (decide (p = PGen KIndex u)) as [->|]; [by eapply Hp|]. rewrite lookup_insert_ne in Hs by done. auto.
Qed.
Lemma idx_ok_frame l w w' : idx_ok l w → (w_next w ≤ w_next w')%N →
  (∀ u, w_fs w' !! PGen KIndex u = w_fs w !! PGen KIndex u) → idx_ok l w'.
Proof.
  intros (H1&H2&H3) Hn Hf. split_and!; [|done|].
  - intros u Hu. rewrite Hf. auto.
  - intros p (u&->&?)%H3. exists u. split; [done|lia].
Qed.
Lemma rec_ok_frame r l w w' : rec_ok r l w → (w_next w ≤ w_next w')%N →
  (∀ f u, w_fs w' !! PGen (KRecord f) u = w_fs w !! PGen (KRecord f) u) → rec_ok r l w'.
Proof.
  intros (H1&H2&H3&H4) Hn Hf. split_and!; [|done| |].
  - intros f u Hu. rewrite Hf. auto.
  - intros p (f&u&->&?)%H3. exists f, u. split; [done|lia].
  - intros f rw Hr. destruct (H4 _ _ Hr) as (?&u&?&?). split; [done|]. exists u. split; [done|lia].
Qed.
Lemma idx_ok_new l w f : (lo ≤ w_next w)%N → idx_ok l w →
  idx_ok (l ++ [PGen KIndex (w_next w)]) (put_world (bump_world w) (PGen KIndex (w_next w)) f).
Proof.
  intros Hlo (H1&H2&H3). apply idx_ok_put; [|intros ? [= <-]; set_solver]. split_and!.
  - intros u Hu Hs. apply elem_of_app. left. auto.
  - apply NoDup_app. split_and!; [done| |apply NoDup_singleton].
    intros p Hp ->%elem_of_list_singleton. destruct (H3 _ Hp) as (u&[= <-]&?). lia.
  - intros p [Hp|Hp%elem_of_list_singleton]%elem_of_app; [|subst p].
    + destruct (H3 _ Hp) as (u&->&?). exists u. cbn. split; [done|lia].
    + eexists. cbn. split; [done|lia].
Qed.
Lemma rec_ok_bump r l w : rec_ok r l w → rec_ok r l (bump_world w).
Proof.
  intros (H1&H2&H3&H4). split_and!; [done|done| |].
  - intros p (f&u&->&?)%H3. exists f, u. cbn. split; [done|lia].
  - intros f rw Hf. destruct (H4 _ _ Hf) as (?&u&?&?). split; [done|]. exists u. cbn. split; [done|lia].
Qed.
Lemma rec_ok_put r l w p f : rec_ok r l w →
  (∀ g u, p = PGen (KRecord g) u → p ∈ l ∨ ∃ rw, r !! g = Some rw ∧ rw_path rw = p) → rec_ok r l (put_world w p f).
Proof.
  intros (H1&H2&H3&H4) Hp. split_and!; [|done|done|done]. intros g u Hu Hs. cbn in Hs.
  destruct (decide (p = PGen (KRecord g) u)) as [->|].
  - destruct (Hp _ _ eq_refl) as [?|?]; eauto.
  - rewrite lookup_insert_ne in Hs by done. auto.
Qed.
Lemma rec_ok_new r l w f g : (lo ≤ w_next w)%N → rec_ok r l w → r !! g = None → ∀ rw, rw_path rw = PGen (KRecord g) (w_next w) →
  rec_ok (<[g := rw]> r) l (put_world (bump_world w) (PGen (KRecord g) (w_next w)) f).
Proof.
  intros Hlo (H1&H2&H3&H4) Hg rw Hrw.
  apply rec_ok_put; [|intros ? ? [= <- <-]; right; exists rw; by rewrite lookup_insert].
  split_and!.
  - intros g' u Hu Hs. destruct (H1 _ _ Hu Hs) as [(rw'&Hr&?)|?]; [|by right]. left. exists rw'.
    rewrite lookup_insert_ne; [done|]. intros ->. congruence.
  - done.
  - intros p (f'&u&->&?)%H3. exists f', u. cbn. split; [done|lia].
  - intros f' rw' [[<- <-]|[_ Hf]]%lookup_insert_Some.
    + rewrite Hrw. split; [|eexists; cbn; split; [done|lia]].
      intros (f'&u&[= <- <-]&?)%H3. lia.
    + destruct (H4 _ _ Hf) as (?&u&?&?). split; [done|]. exists u. cbn. split; [done|lia].
Qed.
Lemma rec_ok_update r l w g rw rw' : rec_ok r l w → r !! g = Some rw → rw_path rw' = rw_path rw → rec_ok (<[g := rw']> r) l w.
Proof.
  intros (H1&H2&H3&H4) Hg Hp. split_and!; [|done|done|].
  - intros f u Hu Hs. destruct (H1 _ _ Hu Hs) as [(rw0&Hr&Hr')|?]; [|by right]. left.
    destruct (decide (f = g)) as [->|]; [|exists rw0; by rewrite lookup_insert_ne].
    exists rw'. rewrite lookup_insert. split; [done|]. congruence.
  - intros f rw0 [[<- <-]|[_ Hf]]%lookup_insert_Some; [|auto]. rewrite Hp. auto.
Qed.
Lemma rec_ok_close r l w g rw : rec_ok r l w → r !! g = Some rw → rec_ok (delete g r) (l ++ [rw_path rw]) w.
Proof.
  intros (H1&H2&H3&H4) Hg. destruct (H4 _ _ Hg) as (Hn&u0&Hu0&Hlt). split_and!.
  - intros f u Hu Hs. destruct (H1 _ _ Hu Hs) as [(rw0&Hr&Hr')|?]; [|right; apply elem_of_app; by left].
    destruct (decide (f = g)) as [->|]; [|left; exists rw0; by rewrite lookup_delete_ne].
    right. apply elem_of_app. right. apply elem_of_list_singleton. congruence.
  - apply NoDup_app. split_and!; [done| |apply NoDup_singleton]. intros p Hp ->%elem_of_list_singleton. done.
  - intros p [Hp|Hp%elem_of_list_singleton]%elem_of_app; [|subst p]; [auto|]. eauto.
  - intros f rw' [Hne Hf]%lookup_delete_Some. destruct (H4 _ _ Hf) as (Hn'&u&Hu&?). split; [|eauto].
    intros [Hp|Hp%elem_of_list_singleton]%elem_of_app; [done|]. rewrite Hu, Hu0 in Hp. injection Hp as ->. done.
Qed.

Lemma maybe_create_files st :
  pc (finv st) (maybe_create_index_writer st)
    (fun '(st', wr) w => finv st' w ∧ as_writer st' = Some wr).
Proof.
  unfold maybe_create_index_writer. destruct (as_writer st) as [wr|] eqn:Hw.
  { apply pc_ret. done. }
  apply pc_new. intros u. apply pc_put. apply pc_ret. intros w (w1&(w0&(Hlo&Hi&Hr&Hin)&->&->)&->).
  split; [|done]. split_and!; cbn -[put_world bump_world].
  - cbn. lia.
  - unfold idx_of in *. cbn -[put_world bump_world]. rewrite Hw in Hi. cbn in Hi. rewrite app_nil_r in Hi.
    by apply idx_ok_new.
  - apply rec_ok_put; [by apply rec_ok_bump|]. by intros.
  - done.
Qed.
Lemma finish_writer_files st wr :
  pc (fun w => finv st w ∧ fst <$> as_writer st = Some wr.1) (finish_index_writer E s st wr)
    (fun st' w => finv st' w ∧ as_writer st' = None ∧ as_recs st' = as_recs st).
Proof.
  destruct wr as [p gs]. unfold finish_index_writer. apply pc_put. apply pc_lift. intros m Hm.
  apply pc_ret. intros w (w0&((Hlo&Hi&Hr&Hin)&Hw)&->). split; [|done].
  destruct (manifest_row_fields _ _ _ _ _ Hm) as [Hp _].
  unfold idx_of in Hi. rewrite Hw in Hi. cbn in Hi. split_and!; cbn -[put_world].
  - done.
  - unfold idx_of. cbn -[put_world]. rewrite app_nil_r, fmap_app. cbn. rewrite Hp. apply idx_ok_put; [done|].
    intros u ->. set_solver.
  - apply rec_ok_put; [done|]. intros g u Hg. destruct Hi as (_&_&Hi). destruct (Hi p) as (u'&Hu&_); [set_solver|]. congruence.
  - done.
Qed.
Lemma finish_record_files st f fid rw :
  pc (fun w => finv st w ∧ as_recs st !! f = Some rw) (finish_record_writer st f fid rw)
    (fun st' w => finv st' w ∧ as_writer st' = as_writer st ∧ as_recs st' = delete f (as_recs st)).
Proof.
  unfold finish_record_writer. apply pc_put. apply pc_ret. intros w (w0&((Hlo&Hi&Hr&Hin)&Hf)&->). split; [|done].
  pose proof Hr as (_&_&_&Hp). destruct (Hp _ _ Hf) as (_&u&Hu&_). split_and!; cbn -[put_world].
  - done.
  - apply idx_ok_put; [done|]. intros u' Hx. congruence.
  - rewrite fmap_app. cbn. apply rec_ok_put; [by apply rec_ok_close|]. intros. left. set_solver.
  - split; [|by apply Hin]. intros g rw' Hg. cbn in Hg. apply lookup_delete_Some in Hg as [_ Hg]. by eapply Hin.
Qed.
Lemma write_column_files st f fid col :
  f ∈ (rec_fields s).*1 →
  pc (finv st) (write_record_column E O st f fid col)
    (fun '(st', _) w => finv st' w ∧ as_writer st' = as_writer st).
Proof.
  intros Hff. unfold write_record_column.
  eapply (pc_bind _ _ (fun rw w => (lo ≤ w_next w)%N ∧ idx_ok (idx_of st) w ∧ recs_in (rec_fields s) st
    ∧ ∃ rw0, rw_path rw0 = rw_path rw ∧ rec_ok (<[f := rw0]> (as_recs st)) (rm_path <$> as_rman st) w)).
  - destruct (as_recs st !! f) as [rw|] eqn:Hf.
    + apply pc_ret. intros w (Hlo&Hi&Hr&Hin). split_and!; try done. exists rw. split; [done|]. by rewrite insert_id.
    + apply pc_new. intros u. apply pc_put. apply pc_ret. intros w (w1&(w0&(Hlo&Hi&Hr&Hin)&->&->)&->).
      split_and!; [cbn; lia| |done|].
      * apply idx_ok_put; [by apply idx_ok_bump|]. by intros.
      * exists (RecWriter (PGen (KRecord f) (w_next w0)) [] 0 0 0). split; [done|]. by apply rec_ok_new.
  - intros rw. apply pc_lift. intros bs _. cbv zeta.
    match goal with |- context [set_rec st f ?x] => set (rw' := x) end.
    assert (Hset : ∀ w, ((lo ≤ w_next w)%N ∧ idx_ok (idx_of st) w ∧ recs_in (rec_fields s) st
      ∧ ∃ rw0, rw_path rw0 = rw_path rw ∧ rec_ok (<[f := rw0]> (as_recs st)) (rm_path <$> as_rman st) w) →
      finv (set_rec st f rw') w).
    { intros w (Hlo&Hi&Hin&rw0&Hp&Hr). split_and!; try done.
      - cbn. rewrite <-(insert_insert (as_recs st) f rw' rw0). eapply rec_ok_update; [exact Hr|apply lookup_insert|done].
      - split; [|by apply Hin]. intros g rw1 Hg. cbn in Hg. apply lookup_insert_Some in Hg as [[<- <-]|[_ Hg]]; [done|by eapply Hin]. }
    destruct (_ <? _)%Z.
    + eapply pc_bind; [eapply pc_pre; [|apply finish_record_files]|].
      * intros w Hw. split; [by apply Hset|]. cbn. by rewrite lookup_insert.
      * intros st'. apply pc_ret. by intros w (?&?&?).
    + apply pc_ret. intros w Hw. split; [by apply Hset|done].
Qed.
Lemma write_columns_files fs data : ∀ st wr,
  (∀ f, f ∈ fs.*1 → f ∈ (rec_fields s).*1) →
  pc (fun w => finv st w ∧ as_writer st = wr) (write_record_columns E O st fs data)
    (fun '(st', _) w => finv st' w ∧ as_writer st' = wr).
Proof.
  induction fs as [|[f fid] fs IH]; intros st wr Hfs; cbn [write_record_columns].
  - apply pc_ret. done.
  - apply pc_lift. intros col _.
    eapply (pc_bind _ _ (fun '(st', _) w => finv st' w ∧ as_writer st' = wr)).
    { intros w w' [st' a] [Hf <-] He. exact (write_column_files st f fid col (Hfs _ ltac:(left)) _ _ _ Hf He). }
    intros [st1 addrs]. cbn. eapply pc_bind; [apply (IH st1 wr); intros; apply Hfs; by right|].
    intros [st2 rest]. apply pc_ret. done.
Qed.
Lemma append_write_files addr_in st data : pc (finv st) (append_write E O s addr_in st data) (fun st' w => finv st' w).
Proof.
  unfold append_write. destruct data as [|r data]; [apply pc_ret; done|].
  eapply pc_bind; [apply maybe_create_files|]. intros [st0 wr]. cbn. apply pc_lift. intros idx _.
  eapply (pc_bind _ _ (fun '(st', _) w => finv st' w ∧ as_writer st' = Some wr)).
  - destruct addr_in.
    + apply pc_lift. intros cols _. apply pc_ret. done.
    + eapply pc_bind; [apply write_columns_files; done|]. intros [st1 cols]. apply pc_ret. done.
  - intros [st1 idx1]. cbv zeta. destruct (_ <? _)%Z.
    + unfold write_table. intros w w' a Hx. revert w w' a Hx. unfold bind at 2. 
      apply (pc_bind _ _ (fun wr' w => finv st1 w ∧ as_writer st1 = Some wr ∧ wr'.1 = wr.1)).
      { apply pc_lift. intros [] _. apply pc_ret. by intros w [? ?]. }
      intros wr'. destruct (_ <? _)%Z.
      * eapply pc_post; [|eapply pc_pre; [|apply finish_writer_files]].
        -- cbn. by intros ? ? [? _].
        -- intros w (Hf&Hw&Hp). cbn. split; [|done]. destruct Hf as (?&Hi&?&?). split_and!; try done.
           unfold idx_of in *. rewrite Hw in Hi. cbn in *. by rewrite Hp.
      * apply pc_ret. intros w (Hf&Hw&Hp). destruct Hf as (?&Hi&?&?). split_and!; try done.
        unfold idx_of in *. rewrite Hw in Hi. cbn in *. by rewrite Hp.
    + apply pc_ret. intros w (Hf&Hw). destruct Hf as (?&Hi&?&?). split_and!; try done.
      unfold idx_of in *. rewrite Hw in Hi. cbn in *. done.
Qed.
Lemma append_batches_files addr_in batches : ∀ st,
  pc (finv st) (foldM_st (append_write E O s addr_in) st batches) (fun st' w => finv st' w).
Proof.
  induction batches as [|b batches IH]; intros st; cbn [foldM_st]; [apply pc_ret; done|].
  eapply pc_bind; [apply append_write_files|]. intros st'. apply IH.
Qed.
Lemma finish_records_files fs : ∀ st,
  pc (finv st) (finish_records st fs)
    (fun st' w => finv st' w ∧ ∀ f, is_Some (as_recs st' !! f) → is_Some (as_recs st !! f) ∧ f ∉ fs.*1).
Proof.
  induction fs as [|[f fid] fs IH]; intros st; cbn [finish_records].
  - apply pc_ret. intros w Hw. split; [done|]. intros f Hf. split; [done|apply not_elem_of_nil].
  - eapply (pc_bind _ _ (fun st' w => finv st' w ∧ ∀ g, is_Some (as_recs st' !! g) → is_Some (as_recs st !! g) ∧ g ≠ f)).
    + destruct (as_recs st !! f) as [rw|] eqn:Hf.
      * eapply pc_post; [|eapply pc_pre; [|apply finish_record_files]]; [|cbn; by intros].
        cbn. intros st' w (?&_&Hd). split; [done|]. rewrite Hd. intros g [rw' [? ?]%lookup_delete_Some]. split; [by eexists|done].
      * apply pc_ret. intros w Hw. split; [done|]. intros g Hg. split; [done|]. intros ->. rewrite Hf in Hg. by destruct Hg.
    + intros st1 w w' st2 [Hf1 Hs1] He. destruct (IH st1 _ _ _ Hf1 He) as [Hf2 Hs2]. split; [done|].
      intros g Hg. destruct (Hs2 _ Hg) as [Hg1 Hn]. destruct (Hs1 _ Hg1) as [Hg0 Hne]. split; [done|].
      cbn. intros [->|?]%elem_of_cons; done.
Qed.
Lemma finish_index_files st :
  pc (fun w => finv st w ∧ as_recs st = ∅) (finish_index E s st)
    (fun st' w => finv st' w ∧ as_recs st' = ∅ ∧ as_writer st' = None).
Proof.
  unfold finish_index.
  apply (pc_bind _ _ (fun '(st', wr) w => (finv st' w ∧ fst <$> as_writer st' = fst <$> wr) ∧ as_recs st' = ∅)).
  - destruct (as_cached st) as [t|].
    + apply (pc_bind _ _ (fun '(st', wr) w => (finv st' w ∧ as_writer st' = Some wr) ∧ as_recs st' = ∅)).
      { intros w w' [st' wr] [Hf He] Hm. split; [exact (maybe_create_files st _ _ _ Hf Hm)|].
        revert Hm. unfold maybe_create_index_writer. destruct (as_writer st); [by intros [= <- <- <-]|].
        cbn. by intros [= <- <- <-]. }
      intros [st1 wr]. cbn. unfold write_table.
      apply (pc_bind _ _ (fun wr' w => ((finv st1 w ∧ as_writer st1 = Some wr) ∧ as_recs st1 = ∅) ∧ wr'.1 = wr.1)).
      { apply pc_lift. intros [] _. apply pc_ret. done. }
      intros wr'. apply pc_ret. intros w (((?&Hw)&?)&Hp). rewrite Hw. cbn. by rewrite Hp.
    + apply pc_ret. intros w [? ?]. split; [split|]; done.
  - intros [st1 [wr|]].
    + intros w w' st' [H H'] He. destruct (finish_writer_files st1 wr w w' st' H He) as (?&?&->). done.
    + apply pc_ret. intros w [[? Hw] ?]. destruct (as_writer st1); done.
Qed.
Definition lists_files (p : patch) (w : world) : Prop :=
  (∀ q ms, pa_add_idx p = [q] → w_fs w !! q = Some (FIdxMan ms) → idx_ok (mr_path <$> ms) w)
  ∧ (pa_add_rec p = [] → rec_ok ∅ [] w)
  ∧ (∀ q rms, pa_add_rec p = [q] → w_fs w !! q = Some (FRecMan rms) → rec_ok ∅ (rm_path <$> rms) w).
Lemma append_finish_files st :
  pc (finv st) (append_finish E s st) (fun op w => ∀ p, op = Some p → lists_files p w).
Proof.
  unfold append_finish.
  apply (pc_bind _ _ (fun st' w => finv st' w ∧ as_recs st' = ∅)).
  { intros w w' st' Hf He. destruct (finish_records_files _ _ _ _ _ Hf He) as [Hf' Hs]. split; [done|].
    apply map_eq. intros f. rewrite lookup_empty. destruct (as_recs st' !! f) as [rw|] eqn:Hg; [|done]. exfalso.
    destruct (Hs f ltac:(by eexists)) as [[rw0 Hr0] Hn]. apply Hn. destruct Hf as (_&_&_&Hin&_). by eapply Hin. }
  intros st1. eapply pc_bind; [apply finish_index_files|].
  intros st2 w w' op (Hf&Hrecs&Hwr) He p ->. destruct Hf as (Hlo&Hi&Hr&_&Hc).
  unfold idx_of in Hi. rewrite Hwr in Hi. cbn in Hi. rewrite app_nil_r in Hi. rewrite Hrecs in Hr.
  unfold bind in He. unfold finish_index_manifest, finish_record_manifest in He. rewrite Hc in He. cbn [app] in He.
  destruct (as_man st2) as [|m ms] eqn:Hm.
  - cbn in He. destruct (as_rman st2) as [|rm rms] eqn:Hrm; cbn in He; destruct (_ =? _)%Z; try done;
      injection He as <- <-; (split; [by intros|]); (split; [by intros|]); [by intros|].
    intros q rms' [= <-] Hq. cbn in Hq. rewrite lookup_insert in Hq. injection Hq as <-.
    eapply rec_ok_frame; [done|cbn; lia|]. intros. cbn. by rewrite !lookup_insert_ne by done.
  - set (l := m :: ms) in *.
    assert (He' : (let '(w1, r) := (let! rm := match as_rman st2 with [] => ret None | all => let! p := new_path KRecMan in
          write_parquet p (FRecMan all) ;; ret (Some p) end in
        if (st_rows (as_stats st2) =? 0)%Z then ret None
        else ret (Some (Patch [PGen KIdxMan (w_next w)] (option_list rm) []
                    (match as_log st2 with [] => None | l => Some (ChangeLog [] l) end)
                    (as_stats st2)))) (put_world (put_world (bump_world w) (PGen KIdxMan (w_next w)) FPartial) (PGen KIdxMan (w_next w)) (FIdxMan l)) in (w1, r))
        = (w', Ok (Some p))).
    { rewrite <-He. subst l. cbn. destruct (as_rman st2); cbn; by destruct (_ =? _)%Z. }
    clear He.
    assert (Hi1 : idx_ok (mr_path <$> l) (put_world (put_world (bump_world w) (PGen KIdxMan (w_next w)) FPartial) (PGen KIdxMan (w_next w)) (FIdxMan l))).
    { eapply idx_ok_frame; [done|cbn; lia|]. intros. cbn. by rewrite !lookup_insert_ne by done. }
    assert (Hr1 : rec_ok ∅ (rm_path <$> as_rman st2) (put_world (put_world (bump_world w) (PGen KIdxMan (w_next w)) FPartial) (PGen KIdxMan (w_next w)) (FIdxMan l))).
    { eapply rec_ok_frame; [done|cbn; lia|]. intros. cbn. by rewrite !lookup_insert_ne by done. }
    destruct (as_rman st2) as [|rm rms] eqn:Hrm; cbn -[put_world] in He'; destruct (_ =? _)%Z; try done; injection He' as <- <-.
    + split; [|split; [done|by intros]]. intros q ms' [= <-] Hq. cbn in Hq. rewrite lookup_insert in Hq. injection Hq as <-. done.
    + split; [|split; [by intros|]].
      * intros q ms' [= <-] Hq. cbn in Hq. rewrite !lookup_insert_ne, lookup_insert in Hq by done. injection Hq as <-.
        eapply idx_ok_frame; [done|cbn; lia|]. intros. cbn. by rewrite !lookup_insert_ne by done.
      * intros q rms' [= <-] Hq. cbn in Hq. rewrite lookup_insert in Hq. injection Hq as <-.
        eapply rec_ok_frame; [done|cbn; lia|]. intros. cbn. by rewrite !lookup_insert_ne by done.
Qed.
End files.

Lemma append_op_files E O s batches w w' p :
  bounded w → append_op E O s batches w = (w', Ok (Some p)) → lists_files (w_next w) p w'.
Proof.
  intros Hb He. refine (pc_bind (finv s (w_next w) append_init) _ _ _ _ (append_batches_files E O s (w_next w) false batches append_init)
    (fun st => append_finish_files E s (w_next w) st) w w' (Some p) _ He p eq_refl).
  assert (Hno : ∀ k u, (w_next w ≤ u)%N → is_Some (w_fs w !! PGen k u) → False).
  { intros k u Hu [f Hf]. apply Hb in Hf. cbn in Hf. lia. }
  split_and!.
  - lia.
  - split_and!; [by intros u Hu []%Hno|constructor|]. by intros ? ?%elem_of_nil.
  - split_and!; [by intros f u Hu []%Hno|constructor| |]; [by intros ? ?%elem_of_nil|].
    intros f rw. cbn. by rewrite lookup_empty.
  - split; [|done]. intros f rw. cbn. by rewrite lookup_empty.
Qed.

Lemma append_accounts E O s batches w w' op :
  bounded w → append_op E O s batches w = (w', Ok op) →
  (op = None ↔ concat batches = []) ∧ ∀ p, op = Some p → accounts w w' (length (concat batches)) p.
Proof.
  intros Hb He. pose proof (append_op_out E O s batches w Hb) as Hout. rewrite He in Hout.
  destruct Hout as (Hw&Hb'&rows&Hsel&Hop). pose proof (tsel_length _ _ _ Hsel) as Hlen.
  destruct op as [p|].
  2:{ subst rows. split; [|by intros]. split; [|done]. intros _. apply nil_length_inv. by rewrite <-Hlen. }
  pose proof Hop as (ms&rms&u&Hne&Hadd&Hlo&Hhi&Hman&Hms&Hnem&Hk&Hres&Hrec&Hrman&Hout&Hdel&Hlog&Hstats&Hrows).
  split.
  { split; [done|]. intros Hc. rewrite Hc in Hlen. destruct rows; [done|done]. }
  intros ? [= <-]. destruct (append_op_files _ _ _ _ _ _ _ Hb He) as (Hidx&Hrec0&Hrecs).
  assert (Hnew : ∀ k v, written w w' (PGen k v) → (w_next w ≤ v)%N ∧ is_Some (w_fs w' !! PGen k v)).
  { intros k v [Hn [f Hs]]. split; [|by eexists]. destruct (decide (v < w_next w)%N); [|lia].
    pose proof (wle_lookup (w_next w) w w' (PGen k v) Hw ltac:(done)) as Heq. congruence. }
  assert (Hold : ∀ k v, (w_next w ≤ v)%N → w_fs w !! PGen k v = None).
  { intros k v Hv. destruct (w_fs w !! PGen k v) eqn:Hf; [|done]. apply Hb in Hf. cbn in Hf. lia. }
  split_and!.
  - exists (PGen KIdxMan u), ms. split_and!; [done|done| |done|].
    + destruct (Hidx _ _ Hadd Hman) as (H1&H2&H3). split_and!; [done| |].
      * intros f. split.
        -- intros Hf. destruct (H3 _ Hf) as (v&->&?&?). split; [by eexists|]. split; [by apply Hold|].
           apply elem_of_list_fmap in Hf as (m&->&Hm). rewrite Forall_forall in Hms.
           destruct (Hms _ Hm) as (?&?&?&->&_). by eexists.
        -- intros [(v&->) Hv]. apply Hnew in Hv as [? ?]. by apply H1.
      * intros m Hm. rewrite Forall_forall in Hms. destruct (Hms _ Hm) as (cols&gs&E'&Hf&_&_&Hr&_).
        exists cols, gs. split; [done|]. by destruct (manifest_row_fields _ _ _ _ _ Hr).
    + rewrite Hstats in Hrows. cbn in Hrows. by rewrite Hrows, Hlen.
  - exists rms. assert (Hok : rec_ok (w_next w) ∅ (rm_path <$> rms) w').
    { destruct rms as [|rm rms]; [by apply Hrec0|]. destruct Hrec as (u2&Ha&_&_&Hf). by eapply Hrecs. }
    assert (Hfile : Forall (fun m => ∃ rs, w_fs w' !! rm_path m = Some (FRecord rs) ∧ rm_rows m = Z.of_nat (length rs)) rms).
    { destruct rms as [|rm rms]; [constructor|]. destruct Hrec as (u2&Ha&_&_&Hf). rewrite Ha in Hrman.
      inversion Hrman as [|? ? (ms'&Hf'&Hall) _]; subst. rewrite Hf in Hf'. by injection Hf' as <-. }
    destruct Hok as (H1&H2&H3&_). split.
    + split_and!; [done| |].
      * intros f. split.
        -- intros Hf. destruct (H3 _ Hf) as (g&v&->&?&?). split; [by eexists _, _|]. split; [by apply Hold|].
           apply elem_of_list_fmap in Hf as (m&->&Hm). rewrite Forall_forall in Hfile.
           destruct (Hfile _ Hm) as (?&->&_). by eexists.
        -- intros [(g&v&->) Hv]. apply Hnew in Hv as [? Hs]. destruct (H1 _ _ H Hs) as [(rw&Hr&_)|?]; [|done].
           by rewrite lookup_empty in Hr.
      * intros m Hm. rewrite Forall_forall in Hfile. auto.
    + destruct rms as [|rm rms]; [by left|]. right. destruct Hrec as (u2&Ha&_&_&Hf). eauto.
  - done.
  - by rewrite Hrows, Hlen.
Qed.
Lemma append_accounted σ E O s batches w' op :
  reachable σ → append_op E O s batches (y_world σ) = (w', Ok op) →
  (op = None ↔ concat batches = []) ∧ ∀ p, op = Some p → accounts (y_world σ) w' (length (concat batches)) p.
Proof. intros Hr. apply append_accounts. by apply reachable_bounded. Qed.
