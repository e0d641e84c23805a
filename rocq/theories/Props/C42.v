(** C42: serializing then deserializing is the identity. *)
From Verif.Model Require Import Serializers.
From Verif.Proofs Require Import Serialize.

(** A batch (a dict from field names to columns) whose values round-trip
    through the serializers of their fields round-trips as a whole.  Fields
    without serializer need no hypothesis. *)
Theorem C42_round_trip : ∀ (V : Type) (m : gmap string (field_serializer V)) batch,
  NoDup batch.*1 →
  (∀ n s col v, (n, col) ∈ batch → m !! n = Some s → v ∈ col → ∃ b, fser s v = Ok b ∧ fde s b = Ok v) →
  ∃ bytes, serialize_dict m batch = Ok bytes ∧ deserialize_dict m bytes = Ok batch.
Proof. intros V. exact dict_round_trip. Qed.
Print Assumptions C42_round_trip.

(** Column by column: names and order stay, a field with a serializer is
    processed value by value, the others pass through. *)
Theorem C42_serialized_columns : ∀ (V : Type) (m : gmap string (field_serializer V)) batch out,
  NoDup batch.*1 → serialize_dict m batch = Ok out →
  Forall2 (fun c c' => c'.1 = c.1 ∧ match m !! c.1 with
     | Some s => Forall2 (fun v v' => fser s v = Ok v') c.2 c'.2
     | None => c'.2 = c.2 end) batch out.
Proof. intros V m. exact (dict_columns m true). Qed.
Print Assumptions C42_serialized_columns.
Theorem C42_deserialized_columns : ∀ (V : Type) (m : gmap string (field_serializer V)) batch out,
  NoDup batch.*1 → deserialize_dict m batch = Ok out →
  Forall2 (fun c c' => c'.1 = c.1 ∧ match m !! c.1 with
     | Some s => Forall2 (fun v v' => fde s v = Ok v') c.2 c'.2
     | None => c'.2 = c.2 end) batch out.
Proof. intros V m. exact (dict_columns m false). Qed.
Print Assumptions C42_deserialized_columns.

(** The serializer created for a schema serializes exactly the fields whose
    type is a serializer, and field_serializer returns it. *)
Theorem C42_create : ∀ (V : Type) fields n (s : field_serializer V),
  NoDup fields.*1 → get_field_serializer (create_serializer fields) n = Some s ↔ (n, Some s) ∈ fields.
Proof. intros V. exact create_serializer_spec. Qed.
Print Assumptions C42_create.

(** A serializer that doubles and only accepts positive numbers, a field
    without serializer. *)
Definition ex_double : field_serializer Z := FieldSerializer
  (fun v => if (0 <? v)%Z then Ok (2 * v)%Z else Err (EOther "ValueError")) (fun b => Ok (b / 2)%Z).
Example round_trip_case :
  let m := create_serializer [("a", Some ex_double); ("b", None)] in
  let batch := [("b", [(-5)%Z; 6%Z]); ("a", [7%Z; 8%Z])] in
  NoDup batch.*1
  ∧ (∀ n s col v, (n, col) ∈ batch → m !! n = Some s → v ∈ col → ∃ b, fser s v = Ok b ∧ fde s b = Ok v)
  ∧ serialize_dict m batch = Ok [("b", [(-5)%Z; 6%Z]); ("a", [14%Z; 16%Z])].
Proof.
  intros m batch. split; [apply (bool_decide_unpack _); vm_compute; exact I|]. split; [|done].
  intros n s col v Hc Hs Hv. unfold batch in Hc. rewrite !elem_of_cons, elem_of_nil in Hc.
  destruct Hc as [[= -> ->]|[[= -> ->]|[]]]; [done|]. vm_compute in Hs. injection Hs as <-.
  rewrite !elem_of_cons, elem_of_nil in Hv. destruct Hv as [->|[->|[]]]; eexists; split; done.
Qed.
