(** The rows an operation supplies, as a full read shows them. *)
From Verif.Spec Require Export Serial Orderly.

Definition supplied (s : schema) (fs : fsys) (o : op) : list row :=
  match o with
  | OAppend batches => show s <$> concat batches
  | OInsert _ data => show s <$> data
  | ODelete _ => []
  | OParquet paths => show s <$> (paths ≫= file_table fs)
  | OArrayRecord paths index_fn _ =>
      match rec_fields s with
      | [(f, _)] => show s <$> ((fun b => columns (filter (fun n => n ≠ f) (names_of (s_fields s))) (index_fn b)
                                            ++ [(f, CVal (SStr b))])
                                 <$> (paths ≫= (fun p => default [] (records_in fs p))))
      | _ => []
      end
  | ORayAppend _ data | ORayInsert _ _ data => show s <$> data
  | ORayAppendFrom _ sources => show s <$> concat (concat sources)
  | ORayDelete _ => []
  end.
(** All rows the operation supplies satisfy [R]. *)
Definition supplies (R : row → Prop) (s : schema) (fs : fsys) (_ : snapshot) (o : op) : Prop :=
  Forall R (supplied s fs o).
(** All rows the call supplies satisfy [R], whatever else the history does. *)
Fixpoint provides (R : row → Prop) (σ : sys) (c : call) : Prop :=
  match c with
  | CRun hid _ _ o => ∀ s, schema_at σ hid = Some s → Forall R (supplied s (w_fs (y_world σ)) o)
  | COp tid _ _ o =>
      ∀ x s, y_txns σ !! tid = Some x → schema_at σ (pe_handle x) = Some s → Forall R (supplied s (w_fs (y_world σ)) o)
  | CCrash c' _ => provides R σ c'
  | _ => True
  end.
