(** * Specification: sizes of types and messages *)
From Verif Require Import Base PyNum Ast Spec_Enum Spec_Num Spec_Check Spec_Bundle Spec_Size.
Open Scope Z_scope.

(** Bits of a value of a type that is written out, not referred to by name.
    An array counts eight bits per element and a string eight per character.
    The last two cases only arise for X ::= Float and X ::= Double. *)
Inductive value_size : asn_type -> Z -> Prop :=
| size_boolean : value_size TBoolean 1
| size_unsigned : forall b e w, 0 <= b -> least_width w e -> value_size (TInteger (Some (b, e))) w
| size_signed : forall b e w, b < 0 -> smallest [8; 16; 32; 64] (fun w => holds_signed w b e) w ->
    value_size (TInteger (Some (b, e))) w
| size_single : forall b e, abs_at_most (fval b) float_bound -> abs_at_most (fval e) float_bound ->
    value_size (TReal (Some (b, e))) 32
| size_double : forall b e, ~ (abs_at_most (fval b) float_bound /\ abs_at_most (fval e) float_bound) ->
    value_size (TReal (Some (b, e))) 64
| size_string : forall k n, value_size (TString k n) (n * 8)
| size_array : forall n t, value_size (TArray n t) (n * 8)
| size_float_name : value_size (TName "Float") 32
| size_double_name : value_size (TName "Double") 64.

(** Bits of a member that is not a nested sequence.  The last case only
    arises for the cosmos command, which accepts two modules of one name and
    does not look at the imports of the first. *)
Inductive leaf_size (ds : list definition) : asn_type -> Z -> Prop :=
| leaf_value : forall t w, ~ is_type_name t -> value_size t w -> leaf_size ds t w
| leaf_simple : forall n c t w, In (DSimple n t c) ds -> value_size t w -> leaf_size ds (TName n) w
| leaf_enum : forall n c l w, In (DEnumerated n c l) ds ->
    least_width w (Z.of_nat (length l) - 1) -> leaf_size ds (TName n) w
| leaf_undefined : forall n w, ~ In n (map def_name ds) -> value_size (TName n) w -> leaf_size ds (TName n) w.

(** The leaves of a list of members, depth first, with their sizes. *)
Inductive leaves (ds : list definition) : list member -> list (member * Z) -> Prop :=
| leaves_nil : leaves ds [] []
| leaves_leaf : forall m w r ls, leaf_size ds (m_type m) w -> leaves ds r ls ->
    leaves ds (m :: r) ((m, w) :: ls)
| leaves_nested : forall m n c l r ls ls', m_type m = TName n -> In (DSequence n c l) ds ->
    leaves ds l ls -> leaves ds r ls' -> leaves ds (m :: r) (ls ++ ls').

Definition total (ls : list (member * Z)) : Z := fold_right Z.add 0 (map snd ls).

(** Sequence [a] has a member whose type is sequence [b]. *)
Definition nests (ds : list definition) (a b : string) : Prop :=
  exists c l m c' l', In (DSequence a c l) ds /\ In m l /\ m_type m = TName b
    /\ In (DSequence b c' l') ds.

(** Sequence [n] contains itself. *)
Inductive reaches (ds : list definition) : string -> string -> Prop :=
| reaches_step : forall a b, nests ds a b -> reaches ds a b
| reaches_trans : forall a b c, nests ds a b -> reaches ds b c -> reaches ds a c.
Definition recursive (ds : list definition) (n : string) : Prop :=
  reaches ds n n \/ exists k, reaches ds n k /\ reaches ds k k.

(** No chain of nested sequences goes on for ever. *)
Definition nonrecursive (ds : list definition) : Prop := forall n, ~ reaches ds n n.
