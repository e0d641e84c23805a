(** Dict serializers. *)
From Verif.Model Require Import Serializers.
From Verif.Proofs Require Import Lib.

Section ser.
Context {V : Type}.
Implicit Types m : gmap string (field_serializer V).

Lemma dict_set_new {A} k (v : A) d : k ∉ d.*1 → dict_set k v d = d ++ [(k, v)].
Proof.
  induction d as [|[k' v'] d IH]; [done|]. cbn. rewrite not_elem_of_cons. intros [Hk Hd].
  by rewrite decide_False, IH by congruence.
Qed.
Lemma process_go m b value acc :
  NoDup (acc.*1 ++ value.*1) →
  rfoldM (fun result '(n, batch) =>
      match m !! n with
      | Some s => let? b := rmapM (fun v => if b : bool then fser s v else fde s v) batch in Ok (dict_set n b result)
      | None => Ok (dict_set n batch result)
      end) acc value
  = rmap (app acc) (rmapM (fun '(n, batch) => match m !! n with
      | Some s => rmap (pair n) (rmapM (fun v => if b then fser s v else fde s v) batch)
      | None => Ok (n, batch) end) value).
Proof.
  revert acc. induction value as [|[n batch] value IH]; intros acc Hnd; [cbn; by rewrite app_nil_r|].
  cbn. assert (Hn : n ∉ acc.*1).
  { apply NoDup_app in Hnd as (_&Hd&_). intros Hin. apply (Hd _ Hin). by left. }
  assert (Hnd' : ∀ x : list V, NoDup ((acc ++ [(n, x)]).*1 ++ value.*1)).
  { intros x. rewrite fmap_app, <-app_assoc. exact Hnd. }
  destruct (m !! n) as [s|].
  - destruct (rmapM _ batch) as [x|e]; [|done]. cbn. rewrite dict_set_new, IH by done.
    destruct (rmapM _ value); [|done]. cbn. by rewrite <-app_assoc.
  - rewrite dict_set_new by done. cbn. rewrite IH by done. destruct (rmapM _ value); [|done]. cbn. by rewrite <-app_assoc.
Qed.
Lemma process_dict_eq m b value :
  NoDup value.*1 →
  process_dict m b value = rmapM (fun '(n, batch) => match m !! n with
      | Some s => rmap (pair n) (rmapM (fun v => if b : bool then fser s v else fde s v) batch)
      | None => Ok (n, batch) end) value.
Proof. intros Hnd. unfold process_dict. rewrite process_go by done. by destruct (rmapM _ value). Qed.
Lemma dict_round_trip m batch :
  NoDup batch.*1 →
  (∀ n s col v, (n, col) ∈ batch → m !! n = Some s → v ∈ col → ∃ b, fser s v = Ok b ∧ fde s b = Ok v) →
  ∃ bytes, serialize_dict m batch = Ok bytes ∧ deserialize_dict m bytes = Ok batch.
Proof.
  intros Hnd Hs. unfold serialize_dict, deserialize_dict. rewrite process_dict_eq by done.
  assert (∃ bytes, rmapM (fun '(n, batch) => match m !! n with
      | Some s => rmap (pair n) (rmapM (fun v => fser s v) batch) | None => Ok (n, batch) end) batch = Ok bytes
      ∧ bytes.*1 = batch.*1 ∧ rmapM (fun '(n, batch) => match m !! n with
      | Some s => rmap (pair n) (rmapM (fun v => fde s v) batch) | None => Ok (n, batch) end) bytes = Ok batch) as (bytes&H1&H2&H3).
  { clear Hnd. induction batch as [|[n col] batch IH]; [by exists []|].
    destruct IH as (bytes&H1&H2&H3); [intros; eapply Hs; [right|..]; eauto|].
    cbn. destruct (m !! n) as [s|] eqn:Hm.
    - assert (∃ bs, rmapM (fun v => fser s v) col = Ok bs ∧ rmapM (fun v => fde s v) bs = Ok col) as (bs&Hb1&Hb2).
      { assert (Hc : ∀ v, v ∈ col → ∃ b, fser s v = Ok b ∧ fde s b = Ok v) by (intros; eapply Hs; [left|..]; eauto).
        clear -Hc. induction col as [|v col IH]; [by exists []|].
        destruct (Hc v) as (b&Hb1&Hb2); [left|]. destruct IH as (bs&H1&H2); [intros; apply Hc; by right|].
        exists (b :: bs). cbn. rewrite Hb1, Hb2. cbn. by rewrite H1, H2. }
      exists ((n, bs) :: bytes). rewrite Hb1. cbn. rewrite Hm, H1, Hb2. cbn. by rewrite H2, H3.
    - exists ((n, col) :: bytes). cbn. rewrite H1. cbn. by rewrite Hm, H2, H3. }
  exists bytes. split; [done|]. rewrite process_dict_eq by (by rewrite H2). done.
Qed.
Lemma dict_columns m b batch out :
  NoDup batch.*1 → process_dict m b batch = Ok out →
  Forall2 (fun c c' => c'.1 = c.1 ∧ match m !! c.1 with
     | Some s => Forall2 (fun v v' => (if b : bool then fser s v else fde s v) = Ok v') c.2 c'.2
     | None => c'.2 = c.2 end) batch out.
Proof.
  intros Hnd. rewrite process_dict_eq by done. clear Hnd. revert out. induction batch as [|[n col] batch IH]; intros out; cbn.
  { intros [= <-]. constructor. }
  destruct (m !! n) as [s|] eqn:Hm.
  - destruct (rmapM _ col) as [x|] eqn:Hc; [|done]. cbn. destruct (rmapM _ batch) as [o|]; [|done]. intros [= <-].
    constructor; [|by apply IH]. cbn. rewrite Hm. split; [done|]. clear -Hc. revert x Hc.
    induction col as [|v col IH]; cbn; intros x; [intros [= <-]; constructor|].
    destruct (if b then fser s v else fde s v) eqn:Hv; [|done]. cbn. destruct (rmapM _ col); [|done]. intros [= <-].
    constructor; [done|]. by apply IH.
  - cbn. destruct (rmapM _ batch) as [o|]; [|done]. intros [= <-]. constructor; [|by apply IH]. cbn. by rewrite Hm.
Qed.
Lemma create_serializer_spec fields n (s : field_serializer V) :
  NoDup fields.*1 → create_serializer fields !! n = Some s ↔ (n, Some s) ∈ fields.
Proof.
  intros Hnd. unfold create_serializer.
  assert (∀ m, foldl (fun m '(n, o) => match o with Some s => <[n := s]> m | None => m end) m fields !! n = Some s
    ↔ (n, Some s) ∈ fields ∨ (n ∉ (filter (fun f => is_Some f.2) fields).*1 ∧ m !! n = Some s)) as Hgo.
  { induction fields as [|[k o] fields IH]; intros m; [cbn|cbn [foldl]].
    - split; [intros ?; right; split; [apply not_elem_of_nil|done]|]. by intros [?%elem_of_nil|[_ ?]].
    - cbn in Hnd. apply NoDup_cons in Hnd as [Hk Hnd]. rewrite IH by done. clear IH. rewrite elem_of_cons.
      assert (Hkf : k ∉ (filter (fun f => is_Some f.2) fields).*1).
      { intros (f&->&[_ Hf]%elem_of_list_filter)%elem_of_list_fmap. apply Hk. apply elem_of_list_fmap. eauto. }
      rewrite filter_cons. destruct o as [s'|]; cbn.
      + rewrite decide_True by eauto. cbn. rewrite not_elem_of_cons. destruct (decide (n = k)) as [->|Hne].
        * rewrite lookup_insert. split.
          -- intros [?|[_ [= ->]]]; [tauto|]. left. by left.
          -- intros [[[= ->]|?]|[[? _] _]]; [|tauto|done]. by right.
        * rewrite lookup_insert_ne by done. split; [intros [?|[??]]; tauto|]. intros [[[= ??]|?]|[[??]?]]; [done|tauto..].
      + rewrite decide_False by (by intros [??]). split; [tauto|]. intros [[[=]|?]|?]; tauto. }
  rewrite Hgo, lookup_empty. split; [|tauto]. by intros [?|[_ ?]].
Qed.
End ser.
