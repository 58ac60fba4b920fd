(** * Specification: what the cfs, c and binary commands can process *)
From Verif Require Import Base PyNum Ast Main GenBinary Spec_Num Spec_Check Spec_Bundle Spec_Order Spec_Size Spec_Layout
  Spec_Cfs Spec_Binary.
Open Scope Z_scope.

(** Ranges of numbers for C: up to some positive number, or within 64 bits. *)
Definition c_range (lo hi : Z) : Prop := (0 <= lo /\ 0 < hi) \/ (lo < 0 /\ holds_signed 64 lo hi).

(** Types written out that have a C type.  Strings and ranges inside arrays do
    not. *)
Inductive direct_c_type : asn_type -> Prop :=
| direct_integer : forall lo hi, c_range lo hi -> direct_c_type (TInteger (Some (lo, hi)))
| direct_real : forall b e, direct_c_type (TReal (Some (b, e)))
| direct_boolean : forall t, element t = TBoolean -> direct_c_type t
| direct_float : forall t, element t = TName "Float" -> direct_c_type t
| direct_double : forall t, element t = TName "Double" -> direct_c_type t.

(** Types of members of a SEQUENCE that have a C type. *)
Inductive has_c_type (ds : list definition) (t : asn_type) : Prop :=
| has_boolean : element t = TBoolean -> has_c_type ds t
| has_string : forall k n, element t = TString k n -> has_c_type ds t
| has_number : (exists r, t = TInteger r) \/ (exists r, t = TReal r) -> direct_c_type t -> has_c_type ds t
| has_simple : forall n t' c, element t = TName n -> In (DSimple n t' c) ds ->
    In n (map fst POSIX_INTEGERS) \/ direct_c_type t' -> has_c_type ds t
| has_other : forall n d, element t = TName n -> In d ds -> def_name d = n -> is_simple d = false -> has_c_type ds t.

(** What all three commands ask for. *)
Record processable (names : list string) (input : list module) : Prop :=
  { pr_valid : bundle_valid names input;
    pr_imports : acyclic (imports_from input);
    pr_types : forall m, In m input -> acyclic (uses_local m);
    pr_members : forall n c l k, In (DSequence n c l) (definitions input) -> In k l ->
      has_c_type (definitions input) (m_type k) }.

(** For cfs in addition: primary headers are encodable, and the simple types
    that are used have a size. *)
Record cfs_processable (input : list module) : Prop :=
  { pr_headers : forall n c l k w, In (DSequence n c l) (definitions input) -> In k l -> m_with k = Some w ->
      Forall encodable (clause_entries w);
    pr_sizes : forall n t c m, In (DSimple n t c) (definitions input) -> In m input -> uses_type m n ->
      exists w, value_size t w }.

(** For binary: if a module has a clause, then all members without clause in
    that module have a size, and the clause has an image. *)
Record binary_processable (e : option endianness) (input : list module) : Prop :=
  { pr_bits : forall m n c l k n' c' l' k', In m input -> In (DSequence n c l) (mod_defs m) -> In k l -> m_with k <> None ->
      In (DSequence n' c' l') (mod_defs m) -> In k' l' -> m_with k' = None ->
      exists w, bit_size (definitions input) (m_type k') w;
    pr_images : forall m n c l k w, In m input -> In (DSequence n c l) (mod_defs m) -> In k l -> m_with k = Some w ->
      exists e' b, e = Some e' /\ clause_image (definitions input) (mod_defs m) e' (m_type k) w b }.
