(** Tools for showing that the hypotheses of theorems can be met. *)
From Verif.Model Require Import System.
From Verif.Spec Require Import Logical Api Layout Fixture Pruning Keys Typed Orderly Uniqueness.
From Verif.Proofs Require Import RayDelete.
From Verif.Proofs Require Import Lib World Resolve AppendSpec SchemaFacts ReadSpec Wf OpSpec Inv FileSet Ops Bodies Txn
  SysInv ReadRun Effects Observe.

Fixpoint calls_ok (σ : sys) (cs : list call) : Prop :=
  match cs with [] => True | c :: cs => env_ok σ c ∧ calls_ok (step σ c) cs end.
Lemma reach_from σ cs : reachable σ → calls_ok σ cs → reachable (foldl step σ cs).
Proof.
  revert σ. induction cs as [|c cs IH]; intros σ Hr; [done|]. intros [Hc Hcs]. cbn. apply IH; [|done].
  by constructor.
Qed.
Lemma reach cs : calls_ok init cs → reachable (ex_calls cs).
Proof. apply reach_from. constructor. Qed.
Lemma reads_once σ hid v rows :
  reachable σ → result σ hid (run_read_all ex_env None None v false None) = Some (Ok rows) → reads σ hid v rows.
Proof.
  intros Hr Hres. destruct (result_handle _ _ _ _ Hres) as [h Hh].
  destruct (reachable_seen _ _ _ Hr Hh) as (s&p&m&Hseen). apply (reads_iff _ _ _ _ _ _ _ _ Hseen).
  pose proof Hseen as [Hs _ Hwf Hst Hm _]. rewrite (result_eq _ _ _ _ Hh) in Hres. injection Hres as Hres.
  destruct (run_read_all_run ex_env v None s h (y_world σ) p m (si_world _ _ Hs) Hwf Hst Hm) as (r&Hr'&Hout).
  rewrite Hr' in Hres. cbn in Hres. subst r. destruct (snap_of m (h_branch h) v) as [sn|]; [|done].
  destruct Hout as (rows'&[= <-]&?). eauto.
Qed.
Ltac external_tested :=
  split; [exact I|];
  let cols := fresh in let gs := fresh in let Hf := fresh in intros cols gs Hf; vm_compute in Hf;
  first [ discriminate Hf
        | injection Hf as <- <-; split;
          [repeat (constructor; [split; [reflexivity|first [left; reflexivity | right; split; [reflexivity|by apply (bool_decide_unpack _)]]]|]); constructor
          |repeat constructor ] ].
Ltac loads_tested :=
  let h := fresh in let Hh := fresh in let p := fresh in let Hp := fresh in
  intros h Hh p Hp; vm_compute in Hh; injection Hh as <-;
  repeat (apply elem_of_cons in Hp as [->|Hp]; [first [ exact I | external_tested ]|]); by apply elem_of_nil in Hp.
(** A distributed call with at least one worker. *)
Ltac workers_tested :=
  solve [ intros ? _; cbn [op_ok]; apply Nat.leb_le; reflexivity | intros ? ? _ _; cbn [op_ok]; apply Nat.leb_le; reflexivity ].
Ltac calls :=
  repeat (split; [first [ exact I | solve [intros ? ? _ _; exact I] | workers_tested | solve [loads_tested] | by apply (bool_decide_unpack _) | by intros ?? | by intros ??? | by vm_compute | exact I ]|]);
  try exact I.
(** An unknown right side becomes the value of the left side; the context is not
    computed. *)
Ltac computed :=
  lazymatch goal with
  | |- @eq ?T ?a ?b =>
      tryif has_evar b
      then (let v := eval vm_compute in a in unify b v; vm_cast_no_check (@eq_refl T v))
      else (vm_compute; reflexivity)
  | |- _ => vm_compute; reflexivity
  end.
Ltac reads_by_computing := apply reads_once; [|computed].

(** Boolean tests for the side conditions of theorems. *)
Definition plain_field (s : schema) (g : afield) : bool :=
  bool_decide (f_name g ∉ s_recs s) && bool_decide (ty_leaves (f_ty g) = 1) && bool_decide (ty_names (f_ty g) = []).
Fixpoint plain_test (s : schema) (n : string) (l : list afield) : bool :=
  match l with
  | [] => true
  | f :: l => if plain_field s f then plain_test s n l else forallb (fun g => negb (bool_decide (f_name g = n))) l
  end.
Lemma plain_tested s n : plain_test s n (s_fields s) = true → plain_before s n.
Proof.
  intros Ht pre f post Heq Hf. rewrite Heq in Ht. clear Heq. induction pre as [|g pre IH]; [constructor|].
  cbn in Ht. destruct (plain_field s g) eqn:Hg.
  - constructor; [|by apply IH]. unfold plain_field in Hg. rewrite !andb_true_iff, !bool_decide_eq_true in Hg.
    destruct Hg as [[??]?]. done.
  - exfalso. rewrite forallb_forall in Ht. specialize (Ht f). rewrite bool_decide_true in Ht by done.
    discriminate Ht. apply in_or_app. right. by left.
Qed.
Fixpoint transparent (e : filter_expr) : bool :=
  match e with
  | ELit _ | EField _ => true
  | EUn _ a => transparent a
  | EBin _ a b => transparent a && transparent b
  | _ => false
  end.
Lemma ignores_tested recs e :
  transparent e = true → forallb (fun n => bool_decide (n ∉ recs)) (filter_fields e) = true → ignores recs e.
Proof.
  intros Ht Hf look look' Hl. rewrite forallb_forall in Hf.
  assert (∀ n, n ∈ filter_fields e → look n = look' n) as Heq.
  { intros n Hn%elem_of_list_In%Hf. apply Hl. by apply bool_decide_eq_true in Hn. } clear Hf Hl.
  induction e as [v|f|g a IH|g a IHa b IHb|sem|h sem]; cbn in *; try done.
  - apply Heq. by left.
  - by rewrite IH.
  - apply andb_true_iff in Ht as [Ha Hb]. rewrite IHa, IHb; try done; intros n Hn; apply Heq, elem_of_app; auto.
Qed.
Lemma safe_tested s e :
  prunable (s_pks s) e = true → transparent e = true →
  forallb (fun n => bool_decide (n ∉ s_recs s)) (filter_fields e) = true →
  forallb (fun n => plain_test s n (s_fields s)) (s_pks s ++ filter_fields e) = true → safe_filter s e.
Proof.
  intros H1 H2 H3 H4. split_and!; [done|by apply ignores_tested|].
  intros n Hn. apply plain_tested. rewrite forallb_forall in H4. by apply H4, elem_of_list_In.
Qed.
Lemma buildable_tested s e :
  forallb (fun n => bool_decide (n ∈ names_of (s_fields s)) && plain_test s n (s_fields s)) (filter_fields e) = true →
  bool_decide (None ∉ literals e) = true → bare e = false → buildable s e.
Proof.
  intros H1 H2%bool_decide_eq_true H3. split_and!; [|done|done].
  intros n Hn%elem_of_list_In. rewrite forallb_forall in H1. apply H1 in Hn.
  rewrite andb_true_iff, bool_decide_eq_true in Hn. destruct Hn. split; [done|by apply plain_tested].
Qed.
Lemma rows_tested pks t (P : option scalar → Prop) `{∀ x, Decision (P x)} :
  forallb (fun r => forallb (fun n => bool_decide (P (row_look r n))) pks) t = true →
  ∀ r n, r ∈ t → n ∈ pks → P (row_look r n).
Proof.
  intros Ht r n Hr%elem_of_list_In Hn%elem_of_list_In. rewrite forallb_forall in Ht. apply Ht in Hr.
  rewrite forallb_forall in Hr. apply Hr in Hn. by apply bool_decide_eq_true in Hn.
Qed.
Lemma proper_tested pks t :
  forallb (fun r => forallb (fun n => bool_decide (row_look r n ≠ None ∧ row_look r n ≠ Some SNaN)) pks) t = true →
  proper_keys pks t.
Proof. intros H r n. by apply (rows_tested pks t (fun x => x ≠ None ∧ x ≠ Some SNaN)). Qed.
Lemma proper_no_nan pks t : proper_keys pks t → no_nan_keys pks t.
Proof. intros H r n Hr Hn. by apply H. Qed.
Lemma proper_nonnull pks t : proper_keys pks t → key_nonnull pks t.
Proof. intros H r n Hr Hn. by apply H. Qed.
Lemma decided_tested e t :
  forallb (fun r => match eval (row_look r) e with Some (SBool _) => true | _ => false end) t = true → decided e t.
Proof.
  intros Ht r Hr%elem_of_list_In. rewrite forallb_forall in Ht. apply Ht in Hr.
  destruct (eval (row_look r) e) as [[| | |]|]; try done. eauto.
Qed.
Lemma plain_keys_tested s : forallb (fun n => plain_test s n (s_fields s)) (s_pks s) = true → plain_keys s.
Proof. intros Ht n Hn%elem_of_list_In. rewrite forallb_forall in Ht. by apply plain_tested, Ht. Qed.
Ltac safe := apply safe_tested; computed.
Ltac can_build := apply buildable_tested; computed.
Ltac proper := apply proper_tested; computed.
Lemma lossless_tested lay (P : row → bool) :
  existsb (fun man => existsb (fun t => existsb P t && existsb (fun r => negb (P r)) t) man) lay = true →
  lossless lay (fun r => P r = true).
Proof.
  intros (man&Hman&(t&Ht&[(r&Hr&HP)%existsb_exists (r'&Hr'&HP')%existsb_exists]%andb_true_iff)%existsb_exists)%existsb_exists.
  left. exists man, t, r, r'. rewrite !elem_of_list_In. split_and!; try done. by destruct (P r').
Qed.
From Verif.Spec Require Import Evolution.
Fixpoint fresh_calls (ok : call → Prop) (σ : sys) (cs : list call) : Prop :=
  match cs with [] => True | c :: cs => (env_ok σ c ∧ fresh_edits σ c ∧ ok c) ∧ fresh_calls ok (step σ c) cs end.
Lemma history_front ok σ0 σ σ' : history ok σ0 σ → history ok σ σ' → history ok σ0 σ'.
Proof. intros H0. induction 1 as [|σ σ' c _ IH ?]; [done|]. constructor; auto. Qed.
Lemma fresh_tested ok σ cs : fresh_calls ok σ cs → fresh_history ok σ (foldl step σ cs).
Proof.
  revert σ. induction cs as [|c cs IH]; intros σ; [by constructor|]. intros [Hc Hcs]. cbn.
  eapply history_front; [|by apply IH]. by apply HistStep; [constructor|].
Qed.
Lemma up_to_date_tested σ hid h :
  y_handles σ !! hid = Some h → stored_meta (w_fs (y_world σ)) = Some (h_meta h) → up_to_date σ hid.
Proof. intros Hh Hm h' Hh'. by simplify_eq. Qed.
Ltac fresh_by_computing :=
  apply fresh_tested;
  repeat (split; [split_and!; [first [ exact I | solve [intros ? ? _ _; exact I] | workers_tested | solve [loads_tested] | by apply (bool_decide_unpack _) | by intros ?? | by intros ??? | exact I | by vm_compute ]
                              |first [ exact I | eapply up_to_date_tested; [computed|computed] ]
                              |first [ exact I | by intros n Hn | by intros Hn | by intros [=] ] ]|]);
  try exact I.
From Verif.Spec Require Import Serial.
Fixpoint all_calls (ok : sys → call → Prop) (σ : sys) (cs : list call) : Prop :=
  match cs with [] => True | c :: cs => ok σ c ∧ all_calls ok (step σ c) cs end.
Lemma history_tested ok σ cs : all_calls ok σ cs → history ok σ (foldl step σ cs).
Proof.
  revert σ. induction cs as [|c cs IH]; intros σ; [by constructor|]. intros [Hc Hcs]. cbn.
  eapply history_front; [|by apply IH]. by apply HistStep; [constructor|].
Qed.
Ltac not_there := intros (x&Hx&Hy); vm_compute in Hx; injection Hx as <-; vm_compute in Hy; discriminate Hy.
Ltac keeping_by_computing :=
  apply history_tested;
  repeat (split; [split_and!; [first [ exact I | solve [intros ? ? _ _; exact I] | workers_tested | solve [loads_tested] | by apply (bool_decide_unpack _) | by intros ?? | by intros ??? | exact I | by vm_compute ]
                              |first [ exact I | eapply up_to_date_tested; [computed|computed] ]
                              |first [ by intros Hn | by intros [=] ]
                              |first [ exact I | by intros [] | not_there ] ]|]);
  try exact I.
Lemma orderly_tested P cs :
  all_calls (fun σ c => env_ok σ c ∧ (y_txns σ = ∅ ∨ fresh_edits σ c) ∧ keeps_branches c ∧ stays_on_branch σ c ∧ runs_only P σ c) init cs →
  orderly P init (ex_calls cs).
Proof. apply history_tested. Qed.
Lemma undisturbed_tested P cs :
  all_calls (fun σ c => env_ok σ c ∧ (y_txns σ = ∅ ∨ fresh_edits σ c ∧ keeps_branches c) ∧ stays_on_branch σ c ∧ runs_only P σ c) init cs →
  undisturbed P init (ex_calls cs).
Proof. apply history_tested. Qed.
Ltac stays_tested :=
  first [ exact I
        | let h := fresh in let m := fresh in let Hh := fresh in intros h m Hh _; left; vm_compute in Hh; injection Hh as <-; reflexivity
        | let x := fresh in let Hx := fresh in intros x Hx; vm_compute in Hx; injection Hx as <-; eexists; split; [computed|reflexivity] ].
Ltac runs_tested tac :=
  first [ exact I
        | let s := fresh in let sn := fresh in let Hs := fresh in let Hc := fresh in
          intros s sn Hs Hc; vm_compute in Hs; injection Hs as <-; vm_compute in Hc; injection Hc as <-; tac
        | let x := fresh in let h := fresh in let sn := fresh in let Hx := fresh in let Hh := fresh in let Hc := fresh in
          intros x h sn Hx Hh Hc; vm_compute in Hx; injection Hx as <-; vm_compute in Hh; injection Hh as <-;
          vm_compute in Hc; injection Hc as <-; tac ].
Ltac env_tested :=
  first [ exact I | solve [intros ? ? _ _; exact I] | workers_tested | solve [loads_tested] | by apply (bool_decide_unpack _) | by intros ?? | by intros ??? | exact I | by vm_compute ].
Ltac edits_tested := first [ exact I | eapply up_to_date_tested; [computed|computed] ].
Ltac branches_tested := first [ exact I | by intros n Hn | by intros Hn | by intros [=] ].
Ltac closed_tested := apply (bool_decide_unpack _); computed.
Ltac orderly_by tac :=
  apply orderly_tested;
  repeat (split; [split_and!; [env_tested
                              |first [ right; edits_tested | left; closed_tested ]
                              |branches_tested
                              |stays_tested
                              |runs_tested tac ]|]);
  try exact I.
Ltac undisturbed_by tac :=
  apply undisturbed_tested;
  repeat (split; [split_and!; [env_tested
                              |first [ right; split; [edits_tested|branches_tested] | left; closed_tested ]
                              |stays_tested
                              |runs_tested tac ]|]);
  try exact I.
Lemma branch_keeping_tested cs : all_calls (fun σ c => env_ok σ c ∧ keeps_branches c) init cs → branch_keeping init (ex_calls cs).
Proof. apply history_tested. Qed.
Ltac branch_keeping_by_computing :=
  apply branch_keeping_tested; repeat (split; [split_and!; [env_tested|branches_tested]|]); try exact I.
(** Rows that fit a schema given explicitly. *)
Definition typed_test (s : schema) (r : row) : bool :=
  forallb (fun f => match rget (f_name f) r with
                    | None => false
                    | Some c => if decide (f_name f ∈ s_recs s) then match c with CVal (SStr _) => true | _ => false end
                                else match c with
                                     | CNull => true
                                     | CVal v => kind_ok (f_ty f) v
                                     | CAddr _ _ => false
                                     | CNested ls => (is_list (f_ty f) || is_struct (f_ty f)) && bool_decide (length ls = ty_leaves (f_ty f))
                                     end
                    end) (s_fields s).
Lemma typed_tested s rows : forallb (typed_test s) rows = true → Forall (typed_row s) rows.
Proof.
  intros Ht. apply Forall_forall. intros r Hr f Hf. rewrite forallb_forall in Ht.
  specialize (Ht r (proj1 (elem_of_list_In _ _) Hr)). unfold typed_test in Ht. rewrite forallb_forall in Ht.
  specialize (Ht f (proj1 (elem_of_list_In _ _) Hf)). cbn beta in Ht.
  destruct (rget (f_name f) r) as [c|]; [|done]. exists c. split; [done|].
  destruct (decide (f_name f ∈ s_recs s)).
  - destruct c as [|[]| |]; try done. eauto.
  - destruct c; try done. apply andb_true_iff in Ht as [? ?%bool_decide_eq_true]. done.
Qed.
Ltac typed := apply typed_tested; computed.
Lemma reads_after_commit σ tid hid x p v rows :
  y_txns σ !! tid = Some (Pending hid x (Some p)) →
  reads (step σ (CCommit tid)) hid v rows → reads (after_commit σ hid x p) hid v rows.
Proof.
  intros Ht Hr E b. specialize (Hr E b). cbn [step] in Hr. rewrite Ht in Hr. unfold after_commit, after.
  destruct (with_handle σ hid (catch_job (txn_commit x p))) as [σ1 r1]. cbn [fst] in *.
  unfold result, with_handle in *. cbn [y_world y_handles] in *. destruct (y_handles σ1 !! hid); [|done].
  by destruct (run_read_all E None None v false b (h, y_world σ1)) as [[??]?].
Qed.
(** Layouts, paths and careful histories. *)
From Verif.Spec Require Import Changes Orderly Uniqueness.
Definition lossless_test (lay : list (list (list row))) (P : row → bool) : bool :=
  existsb (fun man => existsb (fun t => existsb P t && existsb (fun r => negb (P r)) t) man) lay
  || forallb (fun man => negb (existsb (existsb P) man) || forallb (fun t => match t with [] => true | _ => existsb P t end) man) lay.
Lemma lossless_test_sound lay (Q : row → Prop) `{∀ r, Decision (Q r)} :
  lossless_test lay (fun r => bool_decide (Q r)) = true → lossless lay Q.
Proof.
  unfold lossless_test. intros [Ht|Ht]%orb_true_iff.
  - destruct (lossless_tested _ _ Ht) as [(man&t&r&r'&H1&H2&H3&H4&H5&H6)|Hr].
    + left. exists man, t, r, r'. split_and!; try done; [by apply bool_decide_eq_true in H5|].
      intros HQ. by apply H6, bool_decide_eq_true.
    + right. intros man t t' r r' H1 H2 H3 H4 H5 H6.
      destruct (Hr man t t' r r') as (r''&?&?%bool_decide_eq_true); [done..|by apply bool_decide_eq_true|done|]. by exists r''.
  - right. intros man t t' r r' H1 H2 H3 H4 H5 H6. rewrite forallb_forall in Ht.
    specialize (Ht man (proj1 (elem_of_list_In _ _) H1)). apply orb_true_iff in Ht as [Ht|Ht].
    + apply negb_true_iff, not_true_iff_false in Ht. exfalso. apply Ht. apply existsb_exists. exists t. rewrite <- elem_of_list_In.
      split; [done|]. apply existsb_exists. exists r. rewrite <- elem_of_list_In. split; [done|]. by apply bool_decide_eq_true.
    + rewrite forallb_forall in Ht. specialize (Ht t' (proj1 (elem_of_list_In _ _) H3)).
      destruct t' as [|r0 t']; [by apply elem_of_nil in H6|]. apply existsb_exists in Ht as (r''&Hr&HQ%bool_decide_eq_true).
      exists r''. by rewrite elem_of_list_In.
Qed.
Ltac careful_tested :=
  first [ exact I
        | (split; [safe|split; [apply proper_no_nan; proper|split; [apply decided_tested; computed|apply lossless_tested; computed]]])
        | (split; [safe|split; [apply proper_no_nan; proper|split; [apply decided_tested; computed|apply separable_tested; computed]]])
        | (split; [apply plain_keys_tested; computed
                  |split; [apply proper_nonnull; proper|split; [proper|apply (lossless_test_sound _ _); computed]]]) ].
Ltac keyed_tested := first [ exact I | apply proper_tested; computed | careful_tested ].
Fixpoint chain_test (m : metadata) (i : Z) (l : list Z) : bool :=
  match l with
  | [] => false
  | k :: l => bool_decide (k = i) &&
      match md_snaps m !! i with
      | None => false
      | Some sn => match sn_parent sn with None => match l with [] => true | _ => false end | Some j => chain_test m j l end
      end
  end.
Lemma chain_tested m i l : chain_test m i l = true → chain m i l.
Proof.
  revert i. induction l as [|k l IH]; intros i; [done|]. cbn. intros [->%bool_decide_eq_true H]%andb_true_iff.
  destruct (md_snaps m !! i) as [sn|] eqn:Hi; [|done]. destruct (sn_parent sn) as [j|] eqn:Hp.
  - eapply ChainStep; eauto.
  - destruct l; [|done]. by eapply ChainRoot.
Qed.
Lemma path_tested m i j above below :
  chain_test m j (above ++ i :: below) = true → above ≠ [] → path_to m i j (reverse above).
Proof. intros H Hne. exists above, below. split_and!; [by apply chain_tested|done|done]. Qed.
Lemma pair_tested {A B} (x : A * B) b : x.2 = b → x = (x.1, b).
Proof. destruct x; cbn. by intros ->. Qed.
