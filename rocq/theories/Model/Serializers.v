(** core/serializers/base.py: serializers of dicts of columns. *)
From Verif.Model Require Export Base.
Open Scope st_scope.

Section serializers.
(** [V] is the type of Python values, bytes included. *)
Context {V : Type}.

(** FieldSerializer (30-50): user code that may raise. *)
Record field_serializer := FieldSerializer { fser : V → res V; fde : V → res V }.
(** Python dicts in insertion order: `d[k] = v` replaces in place or adds at
    the end. *)
Fixpoint dict_set {A} (k : string) (v : A) (d : list (string * A)) : list (string * A) :=
  match d with
  | [] => [(k, v)]
  | (k', v') :: d' => if decide (k' = k) then (k, v) :: d' else (k', v') :: dict_set k v d'
  end.
Definition dict_data : Type := list (string * list V).

(** DictSerializer.create (63-71).  A field is its name and, if its type is a
    FieldSerializer, that. *)
Definition create_serializer (fields : list (string * option field_serializer)) : gmap string field_serializer :=
  foldl (fun m '(n, o) => match o with Some s => <[n := s]> m | None => m end) ∅ fields.
(** field_serializer (73-78) *)
Definition get_field_serializer (m : gmap string field_serializer) (f : string) : option field_serializer := m !! f.

(** _process_dict (96-108) *)
Definition process_dict (m : gmap string field_serializer) (serialize : bool) (value : dict_data) : res dict_data :=
  rfoldM (fun result '(n, batch) =>
      match m !! n with
      | Some s => let? b := rmapM (fun v => if serialize then fser s v else fde s v) batch in Ok (dict_set n b result)
      | None => Ok (dict_set n batch result)
      end) [] value.
(** serialize, deserialize (80-94) *)
Definition serialize_dict (m : gmap string field_serializer) (value : dict_data) : res dict_data := process_dict m true value.
Definition deserialize_dict (m : gmap string field_serializer) (value : dict_data) : res dict_data := process_dict m false value.
End serializers.
Global Arguments field_serializer : clear implicits.
Global Arguments dict_data : clear implicits.
