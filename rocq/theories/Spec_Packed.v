(** * Specification: C structs and COSMOS packets side by side *)
From Verif Require Import Base PyNum PyStr Ast Size Bundle CCommon Main Spec_Grammar Spec_Enum Spec_Size Spec_Check Spec_Gen Spec_Cosmos.
Open Scope string_scope.
Open Scope Z_scope.

(** ** Enumerations *)

(** What the headers say about the type and the field of leaf [lf]: the
    enumerators of its enumeration carry the numbers of the STATE lines (where
    state [j] has value [j]), and its bit-field has the width of the item. *)
Definition enum_agrees (b : bundle) (lf : leaf) : Prop :=
  forall n cm l, element (m_type (lf_member lf)) = TName n -> In (DEnumerated n cm l) (all_defs b) ->
  least_width (lf_bits lf) (Z.of_nat (length (lf_states lf)) - 1)
  /\ forall fuel bm c, In bm (b_modules b) -> generated fuel b bm c ->
     (forall cm' items, In (CEnum cm' (c_name n) items) (cd_data c) ->
        length items = length (lf_states lf)
        /\ forall j s, nth_error (lf_states lf) j = Some s ->
           exists com, nth_error items j = Some (c_name s, Z.of_nat j, com))
     /\ (forall sn scm sl cm' fields j,
           In (DSequence sn scm sl) (mod_defs (bm_mod bm)) -> In (CStruct cm' (c_name sn) fields) (cd_data c) ->
           nth_error sl j = Some (lf_member lf) -> m_type (lf_member lf) = TName n ->
           exists f, nth_error fields j = Some f /\ cf_bits f = Some (lf_bits lf)).

(** ** Layout of packed structs *)

(** Widths of the basic types used, as on the platforms of cFS. *)
Definition BASIC_TYPES : list (Z * string) :=
  (UINT_TYPES ++ INT_TYPES
   ++ [(8, "char"); (8, "bool"); (32, "int"); (32, "float"); (64, "double"); (64, "unsigned long long")])%list.

(** [D]: all declarations.  A packed enum is as wide as the smallest integer
    type that holds its values. *)
Inductive c_width (D : list cdecl) : string -> Z -> Prop :=
| width_basic : forall t w, In (w, t) BASIC_TYPES -> c_width D t w
| width_enum : forall cm n items w, In (CEnum cm n items) D ->
    smallest [8; 16; 32; 64] (fun w => Forall (fun x => 0 <= snd (fst x) < 2 ^ w) items) w ->
    c_width D n w.

(** Round up to bytes. *)
Definition up8 (z : Z) : Z := (z + 7) / 8 * 8.

(** A piece of data: the names that lead to it, first bit and number of bits. *)
Record slot : Set := mkslot { sl_path : list string; sl_offset : Z; sl_bits : Z }.

(** [c_layout D p o fs ss e]: the fields [fs] of a packed struct, from bit [o]
    on, are the pieces [ss], below the names [p]; they end at bit [e].
    Bit-fields follow the previous field without gap, everything else starts
    at a byte.  An array of basic type is one piece; an array of structs has
    the pieces of all its elements. *)
Inductive c_layout (D : list cdecl) : list string -> Z -> list cfield -> list slot -> Z -> Prop :=
| lay_nil : forall p o, c_layout D p o [] [] o
| lay_bits : forall p o f r w tw ss e, cf_bits f = Some w -> cf_array f = None ->
    c_width D (cf_type f) tw -> 1 <= w <= tw ->
    c_layout D p (o + w) r ss e ->
    c_layout D p o (f :: r) (mkslot (p ++ [cf_name f]) o w :: ss) e
| lay_basic : forall p o f r w ss e, cf_bits f = None -> cf_array f = None -> c_width D (cf_type f) w ->
    c_layout D p (up8 o + w) r ss e ->
    c_layout D p o (f :: r) (mkslot (p ++ [cf_name f]) (up8 o) w :: ss) e
| lay_array : forall p o f r n w ss e, cf_bits f = None -> cf_array f = Some n -> c_width D (cf_type f) w ->
    c_layout D p (up8 o + n * w) r ss e ->
    c_layout D p o (f :: r) (mkslot (p ++ [cf_name f]) (up8 o) (n * w) :: ss) e
| lay_struct : forall p o f r cm fields ss e ss' e', cf_bits f = None -> cf_array f = None ->
    In (CStruct cm (cf_type f) fields) D ->
    c_layout D (p ++ [cf_name f]) (up8 o) fields ss e ->
    c_layout D p (up8 e) r ss' e' ->
    c_layout D p o (f :: r) (ss ++ ss') e'
| lay_structs : forall p o f r n cm fields ss e, cf_bits f = None -> cf_array f = Some n ->
    In (CStruct cm (cf_type f) fields) D ->
    c_layout D p o (repeat (mkcfield (cf_comment f) (cf_type f) (cf_name f) None None) (Z.to_nat n) ++ r) ss e ->
    c_layout D p o (f :: r) ss e.

(** All declarations of the headers generated for a bundle. *)
Definition declarations (fuel : nat) (b : bundle) (D : list cdecl) : Prop :=
  exists cs, Forall2 (generated fuel b) (b_modules b) cs /\ D = flat_map cd_data cs.

(** ** COSMOS packets *)

(** Appended items follow each other without gap. *)
Definition leaf_width (lf : leaf) : Z :=
  match m_type (lf_member lf) with TArray n _ => n * lf_bits lf | _ => lf_bits lf end.
Definition leaf_path (lf : leaf) : list string :=
  map (fun m => c_name (m_key m)) (lf_path lf ++ [lf_member lf]).

Fixpoint packet_slots (o : Z) (ls : list leaf) : list slot :=
  match ls with
  | [] => []
  | lf :: r => mkslot (leaf_path lf) o (leaf_width lf) :: packet_slots (o + leaf_width lf) r
  end.
Definition packet_end (o : Z) (ls : list leaf) : Z := fold_left (fun o lf => o + leaf_width lf) ls o.

(** ** Where both agree *)

Definition posix_name (t : asn_type) : Prop :=
  exists n, element t = TName n
    /\ In n ["Int8-t"; "Int16-t"; "Int32-t"; "Int64-t"; "Uint8-t"; "Uint16-t"; "Uint32-t"; "Uint64-t"].

(** Items for which the generated C has a bit-field of the same width ... *)
Definition bit_leaf (lf : leaf) : Prop :=
  is_array (m_type (lf_member lf)) = false /\ 1 <= lf_bits lf <= 64
  /\ (m_type (lf_member lf) = TBoolean
      \/ (lf_kind lf = A_UINT /\ lf_states lf <> [] /\ ~ posix_name (m_type (lf_member lf)))
      \/ (lf_kind lf = A_UINT /\ lf_states lf = [] /\ ~ In (lf_bits lf) [8; 16; 32; 64])).

(** ... or a field or array of a basic type of the same width. *)
Definition byte_leaf (lf : leaf) : Prop :=
  match lf_kind lf with
  | A_BOOL => False
  | A_UINT => lf_states lf = [] /\ In (lf_bits lf) [8; 16; 32; 64]
  | A_INT => posix_name (m_type (lf_member lf)) \/ lf_bits lf = 32
  | A_FLOAT | A_DOUBLE => ~ posix_name (m_type (lf_member lf))
  | A_STRING => True
  end.

(** A message made of such items and of nested sequences, but no arrays of
    sequences. *)
Inductive supported (ms : list module) (i : nat) : list member -> list member -> list leaf -> Prop :=
| sup_nil : forall p, supported ms i p [] []
| sup_leaf : forall p m r u c w s ls, item_type ms i (m_type m) u c w s ->
    (bit_leaf (mkleaf p m u c w s) \/ byte_leaf (mkleaf p m u c w s)) ->
    supported ms i p r ls -> supported ms i p (m :: r) (mkleaf p m u c w s :: ls)
| sup_nested : forall p m n cm l r ls ls', m_type m = TName n -> ~ posix_name (m_type m) ->
    visible ms i (DSequence n cm l) -> supported ms i (p ++ [m]) l ls -> supported ms i p r ls' ->
    supported ms i p (m :: r) (ls ++ ls').

(** Bytes start at bytes: items that are no bit-fields, sequences, and what
    follows a sequence. *)
Inductive aligned (ms : list module) (i : nat) : list member -> Z -> list member -> list leaf -> Prop :=
| al_nil : forall p o, aligned ms i p o [] []
| al_leaf : forall p o m r u c w s ls, item_type ms i (m_type m) u c w s ->
    (bit_leaf (mkleaf p m u c w s) \/ o mod 8 = 0) ->
    aligned ms i p (o + leaf_width (mkleaf p m u c w s)) r ls ->
    aligned ms i p o (m :: r) (mkleaf p m u c w s :: ls)
| al_nested : forall p o m n cm l r ls ls', m_type m = TName n -> visible ms i (DSequence n cm l) ->
    o mod 8 = 0 -> aligned ms i (p ++ [m]) o l ls ->
    (r = [] \/ packet_end o ls mod 8 = 0) -> aligned ms i p (packet_end o ls) r ls' ->
    aligned ms i p o (m :: r) (ls ++ ls').

(** Message [n], in the only module of [input], is accepted by the cfs
    generator and by the cosmos generator; the fields of its struct are [cs],
    the items of its packet [ps]. *)
Definition both_describe (input : list module) (n : string) (cs ps : list slot) : Prop :=
  exists m b fuel D cm l ls cm' fields e fs, input = [m] /\ grammatical m = true
    /\ build_from_config [mod_name m] input = Ok b /\ declarations fuel b D
    /\ run fuel (GenerateCosmos (mod_name m) [n] "out") input [] = (fs, Ok tt)
    /\ In (DSequence n cm l) (all_defs b) /\ packet_leaves (all_modules b) 0 [] l ls
    /\ In (CStruct cm' (c_name n) fields) D /\ c_layout D [] 0 fields cs e
    /\ ps = packet_slots 0 ls.
