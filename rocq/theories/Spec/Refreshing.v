(** Materialized views: the rows a view has, given the rows of its source. *)
From Verif.Model Require Export System Refresh.
From Verif.Spec Require Export Api Keys.

Section view.
Context {F : Type} (map_fn : F → row → list row) (keep_fn : F → row → bool).

(** The rows of a view over the rows of its source: each transform sees the
    columns it asks for. *)
Fixpoint view_rows (v : view F) (rows : list row) : list row :=
  match v with
  | VData _ _ _ => rows
  | VMap u i fields => (columns fields <$> view_rows i rows) ≫= map_fn (u_fn u)
  | VFilter u i fields => filter (fun r => keep_fn (u_fn u) r = true) (columns fields <$> view_rows i rows)
  end.
(** The view keeps primary keys: a row of the view has the keys of the row it
    comes from. *)
Definition keeps_keys (v : view F) (pks : list string) : Prop :=
  ∀ r x, x ∈ view_rows v [r] → key_of pks x = key_of pks r.
End view.

(** The version of the source a refresh goes to, as its handle knows it. *)
Definition refresh_target (h : handle) (target : option version) : option Z :=
  match target with
  | None => Some (md_current (h_meta h))
  | Some (VId i) => Some i
  | Some (VName x) => rf_id <$> md_refs (h_meta h) !! x
  end.

(** The states of the storage of a materialized view: any calls on it, and
    refreshes from any reachable source. *)
Inductive mv_reachable : sys → Prop :=
| MvStart : mv_reachable init
| MvCall σ c : mv_reachable σ → env_ok σ c → mv_reachable (step σ c)
| MvRefresh {F} (map_fn : F → row → list row) (keep_fn : F → row → bool) E O n blocks (v : view F) target batch σs hs σ hm :
    mv_reachable σ → reachable σs → 1 ≤ n →
    mv_reachable (after2 σs hs σ hm (run_refresh map_fn keep_fn E O n blocks v target batch)).2.
