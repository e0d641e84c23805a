(** Histories of calls on the storages of a machine, and which of them created
    a dataset. *)
From Verif.Model Require Export Catalog.

Notation trace := (list (string * call)).
Definition disk_run (cwd : string) (tr : trace) : disk := foldl (λ D x, act cwd D x.1 x.2) ∅ tr.
(** Every call keeps the assumptions of Model/System.v on the outside world. *)
Inductive allowed (cwd : string) : trace → Prop :=
| AllowedNil : allowed cwd []
| AllowedStep tr location c :
    allowed cwd tr → env_ok (storage_at (disk_run cwd tr) (place cwd location)) c → allowed cwd (tr ++ [(location, c)]).

(** Some create call for the location at [p], with these arguments, succeeded. *)
Definition created (cwd : string) (tr : trace) (p : list string) (fs : list afield) (pks recs : list string) : Prop :=
  ∃ before location hid after h,
    tr = before ++ (location, CCreate hid fs pks recs) :: after ∧ place cwd location = p
    ∧ (create fs pks recs (y_world (storage_at (disk_run cwd before) p))).2 = Ok h.

(** No process dies while it creates a dataset. *)
Fixpoint dies_creating (c : call) : bool :=
  match c with
  | CCrash c' _ => match c' with CCreate _ _ _ _ => true | _ => dies_creating c' end
  | _ => false
  end.
Definition creates_finish (tr : trace) : Prop := Forall (λ x, dies_creating x.2 = false) tr.

(** What os.listdir returns: names, each once, among them those of the
    directories that hold a dataset. *)
Definition lists_dir (cwd catalog : string) (D : disk) (entries : list string) : Prop :=
  Forall plain_name entries ∧ NoDup entries
  ∧ ∀ n, plain_name n → is_dataset D (place cwd catalog ++ [n]) = true → n ∈ entries.
