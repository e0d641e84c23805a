(** What a stored row means: record addresses stand for the bytes they point
    at. *)
From Verif.Model Require Export Store.

(** Records of a file, if it is a record file. *)
Definition records_in (fs : fsys) (p : path) : option (list string) :=
  match fs !! p with Some (FRecord rs) => Some rs | _ => None end.
(** The payload an address cell points at. *)
Definition resolve_cell (rv : path → option (list string)) (c : cell) : option cell :=
  match c with
  | CAddr p i =>
      if decide (0 ≤ i)%Z then
        rs ← rv p; b ← rs !! Z.to_nat i; Some (CVal (SStr b))
      else None
  | _ => None
  end.
(** A stored row with the cells of the record fields [recs] resolved. *)
Definition resolve_field (rv : path → option (list string)) (recs : list string)
    (nc : string * cell) : option (string * cell) :=
  if decide (nc.1 ∈ recs) then pair nc.1 <$> resolve_cell rv nc.2 else Some nc.
Definition resolve_row (rv : path → option (list string)) (recs : list string) (r : row)
    : option row :=
  mapM (resolve_field rv recs) r.
