(** core/random_access.py: random access data sources. *)
From stdpp Require Import sorting.
From Verif.Model Require Export Runner Serializers.

(** shard_utils.FileInstruction, as built by _file_instruction (282-287) *)
Record file_instruction := FileInstruction {
  fi_file : path; fi_skip : Z; fi_take : Z; fi_total : Z }.
Definition make_instruction (p : path) (first last total : Z) : file_instruction :=
  FileInstruction p first (last - first + 1) total.

(** The loop over the sorted row IDs of one file (267-277). *)
Fixpoint file_runs (p : path) (total start : Z) (indexes : list Z) : list file_instruction :=
  match indexes with
  | [] => []
  | idx :: rest =>
      match rest with
      | [] => [make_instruction p start idx total]
      | next :: _ =>
          if (idx + 1 <? next)%Z then make_instruction p start idx total :: file_runs p total next rest
          else file_runs p total start rest
      end
  end.
(** build_file_instructions (244-279): one group per file, in order of first
    occurrence. *)
Definition build_file_instructions (addrs : list (path * Z)) : list file_instruction :=
  nub addrs.*1 ≫= fun p =>
    let indexes := merge_sort Z.le (snd <$> filter (fun a => a.1 = p) addrs) in
    match indexes, last indexes with
    | start :: _, Some l => file_runs p (l + 1) start indexes
    | _, _ => []
    end.

(** ards.ArrayRecordDataSource: element [i] is the [i]-th record of the
    concatenation of the instructions. *)
Fixpoint locate (instrs : list file_instruction) (i : Z) : option (path * Z) :=
  match instrs with
  | [] => None
  | x :: rest => if (i <? fi_take x)%Z then Some (fi_file x, fi_skip x + i)%Z else locate rest (i - fi_take x)
  end.

Section sources.
(** Python values; [raw] are bytes values, [sers] the serializers if records
    are to be deserialized. *)
Context {V : Type} (raw : string → V) (sers : option (gmap string (field_serializer V))).

(** _maybe_deserialize (71-75), field_serializer(f).deserialize (105-109) *)
Definition maybe_deserialize (f : string) (b : string) : res V :=
  match sers with
  | None => Ok (raw b)
  | Some m => match m !! f with
              | Some s => fde s (raw b)
              | None => Err (EOther "AttributeError: 'NoneType' object has no attribute 'deserialize'")
              end
  end.
Definition read_record (p : path) (i : Z) : M string :=
  let! recs := read_records p in lift (record_at recs i).

(** ArrayRecordDataSource (37-75), of field [f] *)
Definition ar_length (instrs : list file_instruction) : Z := Zsum (fi_take <$> instrs).
Definition ar_getitem (f : string) (instrs : list file_instruction) (i : nat) : M V :=
  let! (p, k) := lift (of_opt (EOther "IndexError") (locate instrs (Z.of_nat i))) in
  let! b := read_record p k in
  lift (maybe_deserialize f b).
Definition ar_getitems (f : string) (instrs : list file_instruction) (is : list nat) : M (list V) :=
  mapM_st (ar_getitem f instrs) is.

(** ArrowDataSource (78-141): rows of record addresses, the feature fields.
    Results are dicts; with one field only its value is returned
    (_maybe_remove_dict), which drops the name. *)
Definition arrow_cell (addrs : list row) (f : string) (i : nat) : res cell :=
  let? r := of_opt (EOther "IndexError") (addrs !! i) in
  of_opt (EOther "KeyError") (rget f r).
(** __getitem__ (94-112) *)
Definition arrow_getitem (addrs : list row) (fields : list string) (i : nat) : M (list (string * V)) :=
  let! records := mapM_st (fun f =>
      let! c := lift (arrow_cell addrs f i) in
      let! (p, k) := lift (cell_addr c) in
      let! b := read_record p k in
      ret (f, b)) fields in
  lift (rmapM (fun '(f, b) => rmap (pair f) (maybe_deserialize f b)) records).
(** __getitems__ (114-131) *)
Definition cell_raw (c : cell) : res V :=
  match c with CVal (SStr b) => Ok (raw b) | _ => Err (EOther "bytes expected") end.
Definition arrow_getitems (addrs : list row) (fields : list string) (is : list nat) : M (list (string * list V)) :=
  let! columns := mapM_st (fun f =>
      let! cs := lift (rmapM (arrow_cell addrs f) is) in
      let! vals := read_record_column cs in
      let! bs := lift (rmapM cell_raw vals) in
      ret (f, bs)) fields in
  match sers with
  | None => ret columns
  | Some m => lift (deserialize_dict m columns)
  end.

(** RandomAccessDataSource (144-241) over one storage.  read_all returns None,
    which raises UserInputError, if no table is read (237-239). *)
Inductive data_source :=
| ArrayRecordSource (f : string) (instrs : list file_instruction)
| ArrowSource (fields : list string) (addrs : list row).
Definition make_source (fields : list string) (use_array_record : bool) (addrs : list row) : res data_source :=
  match use_array_record, fields with
  | true, [f] => let? cells := tcol f addrs in
                 let? places := rmapM cell_addr cells in
                 Ok (ArrayRecordSource f (build_file_instructions places))
  | _, _ => Ok (ArrowSource fields addrs)
  end.
Definition run_random_access (E : env) (fields : list string) (use_array_record : bool) : H data_source :=
  let! _ := lift (match sers with
                  | Some m => rmapM (fun f => of_opt (EUser UInput) (m !! f)) fields
                  | None => Ok []
                  end) in
  let! tables := run_read E None (Some fields) None true None in
  match tables with
  | [] => raise (EUser UInput)
  | _ => lift (make_source fields use_array_record (concat tables))
  end.
(** __len__ (44-45, 86-87), __getitem__ and __getitems__: a dict, or the only
    value of it. *)
Definition source_length (src : data_source) : nat :=
  match src with
  | ArrayRecordSource _ instrs => Z.to_nat (ar_length instrs)
  | ArrowSource _ addrs => length addrs
  end.
Definition source_getitem (src : data_source) (i : nat) : M (list (string * V)) :=
  match src with
  | ArrayRecordSource f instrs => let! v := ar_getitem f instrs i in ret [(f, v)]
  | ArrowSource fields addrs => arrow_getitem addrs fields i
  end.
Definition source_getitems (src : data_source) (is : list nat) : M (list (string * list V)) :=
  match src with
  | ArrayRecordSource f instrs => let! vs := ar_getitems f instrs is in ret [(f, vs)]
  | ArrowSource fields addrs => arrow_getitems addrs fields is
  end.
End sources.
