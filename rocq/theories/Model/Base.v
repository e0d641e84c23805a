(** Shared infrastructure of the model: exceptions as values, a state monad
    that keeps the state reached when an exception is raised (files written
    before a Python exception stay on disk), and list helpers. *)
From stdpp Require Export prelude strings gmap list pretty.
From Coq Require Export ZArith.

(** Exceptions.  `StorageMixin.transactional` (core/runners.py:105-121) only
    distinguishes these classes (core/utils/errors.py:18-55):
    [EUser]    UserInputError and its subclasses (VersionNotFoundError,
               VersionAlreadyExistError, PrimaryKeyExistError, FileExistError,
               StorageExistError, StorageNotFoundError);
    [ERuntime] SpaceRuntimeError and its subclasses;
    [EOther]   any other Python exception (KeyError, TypeError, plain
               ValueError, AssertionError, OSError, pyarrow errors). *)
Inductive uerr :=
| UInput | UVersionNotFound | UVersionExists | UPrimaryKeyExists | UFileExists
| UStorageExists | UStorageNotFound.
Inductive err :=
| EUser (u : uerr)
| ERuntime (what : string)
| EOther (what : string).

Inductive res (A : Type) := Ok (a : A) | Err (e : err).
Global Arguments Ok {A} a.
Global Arguments Err {A} e.

Definition rbind {A B} (m : res A) (f : A → res B) : res B :=
  match m with Ok a => f a | Err e => Err e end.
Definition rmap {A B} (f : A → B) (m : res A) : res B :=
  match m with Ok a => Ok (f a) | Err e => Err e end.
Definition of_opt {A} (e : err) (o : option A) : res A :=
  match o with Some a => Ok a | None => Err e end.

(** Sequential map that stops at the first exception. *)
Fixpoint rmapM {A B} (f : A → res B) (l : list A) : res (list B) :=
  match l with
  | [] => Ok []
  | x :: l' => rbind (f x) (fun y => rbind (rmapM f l') (fun ys => Ok (y :: ys)))
  end.
Fixpoint rfoldM {A S} (f : S → A → res S) (s : S) (l : list A) : res S :=
  match l with
  | [] => Ok s
  | x :: l' => rbind (f s x) (fun s' => rfoldM f s' l')
  end.

(** State monad with exceptions; the state survives an exception. *)
Definition ST (S A : Type) : Type := S → S * res A.
Definition ret {S A} (a : A) : ST S A := fun s => (s, Ok a).
Definition raise {S A} (e : err) : ST S A := fun s => (s, Err e).
Definition bind {S A B} (m : ST S A) (k : A → ST S B) : ST S B :=
  fun s => match m s with
           | (s', Ok a) => k a s'
           | (s', Err e) => (s', Err e)
           end.
Definition lift {S A} (r : res A) : ST S A := fun s => (s, r).
Definition gets {S A} (f : S → A) : ST S A := fun s => (s, Ok (f s)).

Declare Scope st_scope.
Delimit Scope st_scope with st.
Notation "'let!' x ':=' m 'in' k" := (bind m (fun x => k))
  (at level 200, x pattern, m at level 100, k at level 200, right associativity) : st_scope.
Notation "m ;; k" := (bind m (fun _ => k))
  (at level 100, k at level 200, right associativity) : st_scope.
Notation "'let?' x ':=' m 'in' k" := (rbind m (fun x => k))
  (at level 200, x pattern, m at level 100, k at level 200, right associativity) : st_scope.

Fixpoint mapM_st {S A B} (f : A → ST S B) (l : list A) : ST S (list B) :=
  match l with
  | [] => ret []
  | x :: l' => bind (f x) (fun y => bind (mapM_st f l') (fun ys => ret (y :: ys)))
  end.
Fixpoint foldM_st {S A T} (f : T → A → ST S T) (t : T) (l : list A) : ST S T :=
  match l with
  | [] => ret t
  | x :: l' => bind (f t x) (fun t' => foldM_st f t' l')
  end.

(** Cut a list into consecutive non-empty pieces; the oracle [sizes] proposes
    the piece sizes (a zero is read as one) and whatever is left is the last
    piece.  Used for row groups and chunk boundaries chosen by Arrow. *)
Fixpoint chop {A} (sizes : list nat) (l : list A) : list (list A) :=
  match sizes, l with
  | _, [] => []
  | [], _ => [l]
  | n :: sizes', x :: l' => (x :: take (pred n) l') :: chop sizes' (drop (pred n) l')
  end.

(** Consecutive pieces of at most [n] elements ([n] = 0 is read as 1). *)
Fixpoint chunks_fuel {A} (fuel n : nat) (l : list A) : list (list A) :=
  match fuel, l with
  | _, [] => []
  | O, _ => []
  | S fuel', x :: l' => (x :: take (pred n) l') :: chunks_fuel fuel' n (drop (pred n) l')
  end.
Definition chunks {A} (n : nat) (l : list A) : list (list A) :=
  chunks_fuel (length l) n l.

Definition Zsum (l : list Z) : Z := foldr Z.add 0%Z l.
