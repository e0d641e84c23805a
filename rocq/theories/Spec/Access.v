(** What random access must return. *)
From stdpp Require Import sorting.
From Verif.Model Require Export RandomAccess System.
From Verif.Spec Require Export Api Logical.

(** The record addresses a list of instructions stands for. *)
Definition enumerated (instrs : list file_instruction) : list (path * Z) :=
  instrs ≫= fun x => (fun k => (fi_file x, fi_skip x + Z.of_nat k)%Z) <$> seq 0 (Z.to_nat (fi_take x)).
(** Addresses sorted by file: one block per file, increasing within it. *)
Definition in_file_order (addrs : list (path * Z)) : Prop :=
  ∃ blocks : list (path * list Z),
    NoDup blocks.*1 ∧ Forall (fun b => b.2 ≠ [] ∧ StronglySorted Z.lt b.2) blocks
    ∧ addrs = blocks ≫= fun b => pair b.1 <$> b.2.
(** The addresses in a column. *)
Definition addresses_in (f : string) (t : list row) : list (path * Z) :=
  omap (fun r => match rget f r with Some (CAddr p i) => Some (p, i) | _ => None end) t.

(** The fields of a row as a dict, deserialized if there are serializers. *)
Definition decode {V} (raw : string → V) (sers : option (gmap string (field_serializer V))) (f b : string) : res V :=
  match sers with
  | None => Ok (raw b)
  | Some m => match m !! f with
              | Some s => fde s (raw b)
              | None => Err (EOther "AttributeError: 'NoneType' object has no attribute 'deserialize'")
              end
  end.
Definition dict_of {V} (raw : string → V) (sers : option (gmap string (field_serializer V))) (fields : list string)
    (r : row) : res (list (string * V)) :=
  rmapM (fun f => match rget f r with
                  | Some (CVal (SStr b)) => rmap (pair f) (decode raw sers f b)
                  | _ => Err (EOther "KeyError")
                  end) fields.
(** d[f] *)
Definition dict_get {A} (f : string) (d : list (string * A)) : option A := list_to_map (M := gmap string A) d !! f.
