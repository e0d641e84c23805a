(** C38: random-access file instructions cover the addresses. *)
From Verif.Spec Require Import Access.
From Verif.Proofs Require Import Access.

(** [enumerated instrs]: the addresses (file, skip + 0), ..., (file, skip + take - 1)
    of the instructions, in order. *)
Theorem C38_cover : ∀ addrs : list (path * Z),
  NoDup (enumerated (build_file_instructions addrs))
  ∧ ∀ a, a ∈ enumerated (build_file_instructions addrs) ↔ a ∈ addrs.
Proof. exact instructions_cover. Qed.
Print Assumptions C38_cover.

(** So an address given once is enumerated once, and none is enumerated twice. *)
Theorem C38_same_when_distinct : ∀ addrs : list (path * Z),
  NoDup addrs → enumerated (build_file_instructions addrs) ≡ₚ addrs.
Proof. exact instructions_distinct. Qed.
Print Assumptions C38_same_when_distinct.

(** Every instruction takes at least one record. *)
Theorem C38_takes : ∀ addrs x, x ∈ build_file_instructions addrs → (0 < fi_take x)%Z.
Proof. exact instructions_take. Qed.
Print Assumptions C38_takes.

(** The order of the addresses is kept exactly if they come file by file,
    increasing within each file. *)
Theorem C38_order : ∀ addrs, enumerated (build_file_instructions addrs) = addrs ↔ in_file_order addrs.
Proof. exact instructions_order. Qed.
Print Assumptions C38_order.

Example C38_case :
  let p := PExt "p" in let q := PExt "q" in
  let addrs := [(p, 7); (q, 0); (p, 3); (p, 2); (q, 1); (p, 3)]%Z in
  (fun x => (fi_file x, fi_skip x, fi_take x)) <$> build_file_instructions addrs = [(p, 2, 2); (p, 7, 1); (q, 0, 2)]%Z
  ∧ enumerated (build_file_instructions addrs) = [(p, 2); (p, 3); (p, 7); (q, 0); (q, 1)]%Z.
Proof. vm_compute. done. Qed.
Example C38_case_distinct : NoDup [(PExt "p", 7); (PExt "q", 0); (PExt "p", 6)]%Z.
Proof. apply (bool_decide_unpack _). vm_compute. exact I. Qed.
Example C38_case_order : in_file_order [(PExt "p", 2); (PExt "p", 6); (PExt "q", 0)]%Z.
Proof. apply instructions_order. vm_compute. done. Qed.
