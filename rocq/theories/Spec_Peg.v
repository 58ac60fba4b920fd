(** * Specification: the objects of the grammar and the modules of the model

    [module_value m v]: the object [v] that the grammar builds has the
    attributes that [m] records, in the order of the text. *)
From Verif Require Import Base PyNum PyFloat PyStr Ast Regex Peg Spec_Grammar Spec_Syntax Spec_Utf8.
Open Scope string_scope.

(** A text; a numeral for an integer or a float. *)
Definition text_value (t : string) : value := Text (codes t).
Definition int_value (z : Z) (v : value) : Prop := exists t, v = text_value t /\ int_here z t "".
Definition float_value (f : pyfloat) (v : value) : Prop := exists t, v = text_value t /\ float_here f t "".

(** Attributes that are there only if they are written. *)
Definition comment_value (c : comment) : value := Object "Asn1Comment" (
  (if cm_little_endian c then [("is_little_endian", text_value "ENDIANNESS(LITTLE)")] else []) ++
  (if String.eqb (cm_unit c) "" then [] else [("unit", text_value (cm_unit c))]) ++
  (if String.eqb (cm_text c) "" then [] else [("comment", text_value (cm_text c))]))%list.
Definition comment_attr (n : string) (c : option comment) : attributes :=
  match c with Some c => [(n, comment_value c)] | None => [] end.

Definition range_value {A} (V : A -> value -> Prop) (r : option (A * A)) (l : attributes) : Prop :=
  match r with
  | Some (b, e) => exists x y, l = [("begin", x); ("end", y)] /\ V b x /\ V e y
  | None => l = []
  end.
Fixpoint type_value (t : asn_type) (v : value) : Prop :=
  match t with
  | TReal r => exists l, v = Object "Asn1Type" (("type_name", text_value "REAL") :: l) /\ range_value float_value r l
  | TInteger r => exists l, v = Object "Asn1Type" (("type_name", text_value "INTEGER") :: l) /\ range_value int_value r l
  | TNull => v = Object "Asn1Type" [("type_name", text_value "NULL")]
  | TBoolean => v = Object "Asn1Type" [("type_name", text_value "BOOLEAN")]
  | TString k n => exists x, v = Object "Asn1Type" [("type_name",
      Object "Asn1String" [("type_name", text_value (string_kind_name k)); ("length", x)])] /\ int_value n x
  | TArray n e => exists x y, v = Object "Asn1Type" [("type_name",
      Object "Array" [("length", x); ("asn_type", y)])] /\ int_value n x /\ type_value e y
  | TName n => v = Object "Asn1Type" [("type_name", text_value n)]
  end.

(** [R last x v] for the elements of two lists, one by one. *)
Section InOrder.
Context {A : Type} (R : bool -> A -> value -> Prop).
Fixpoint in_order (l : list A) (vs : list value) : Prop :=
  match l, vs with
  | [], [] => True
  | x :: l', v :: vs' => R (match l' with [] => true | _ => false end) x v /\ in_order l' vs'
  | _, _ => False
  end.
End InOrder.
Definition all_named (n : string) (vs : list value) : attributes := map (fun v => (n, v)) vs.
Definition last_rule (rule : string) (last : bool) : string := rule ++ (if last then "Last" else "NotLast").

Fixpoint clause_value (w : wcomps) (v : value) : Prop :=
  match w with
  | WC c items => exists vs, v = Object "WithComponents" (comment_attr "comment" c ++ all_named "components" vs)%list
      /\ in_order (fun last i v => item_value last i v) items vs
  end
with item_value (last : bool) (i : witem) (v : value) : Prop :=
  match i with
  | WI k x c => exists y, v = Object (last_rule "ComponentsItem" last) (("key", text_value k) :: ("value", y) :: comment_attr "comment" c)
      /\ component_is x y
  end
with component_is (x : wval) (v : value) : Prop :=
  match x with
  | VInt z => int_value z v
  | VFloat f => float_value f v
  | VBool b => v = text_value (if b then "TRUE" else "FALSE")
  | VWith w => clause_value w v
  end.

Definition with_value (w : option wcomps) (l : attributes) : Prop :=
  match w with Some w => exists v, l = [("with_components", v)] /\ clause_value w v | None => l = [] end.
Definition member_value (last : bool) (x : member) (v : value) : Prop := exists t w,
  v = Object (last_rule "KeyTypePair" last)
        ((("key", text_value (m_key x)) :: ("asn_type", t) :: comment_attr "comment" (m_comment x)) ++ w)%list
  /\ type_value (m_type x) t /\ with_value (m_with x) w.
Definition number_value (o : option Z) (l : attributes) : Prop :=
  match o with Some z => exists v, l = [("pos", v)] /\ int_value z v | None => l = [] end.
Definition enum_value (last : bool) (x : enum_item) (v : value) : Prop := exists n,
  v = Object (last_rule "EnumeratedItem" last) ((("key", text_value (e_key x)) :: n) ++ comment_attr "comment" (e_comment x))%list
  /\ number_value (e_written x) n.

Definition definition_value (d : definition) (v : value) : Prop :=
  match d with
  | DSequence n c l => exists vs, v = Object "Sequence" ((("type_name", text_value n) :: comment_attr "comment" c) ++ all_named "seq" vs)%list
      /\ in_order member_value l vs
  | DChoice n c l => exists vs, v = Object "Choice" ((("type_name", text_value n) :: comment_attr "comment" c) ++ all_named "choice" vs)%list
      /\ in_order member_value l vs
  | DEnumerated n c l => exists vs, v = Object "Enumerated" ((("type_name", text_value n) :: comment_attr "comment" c) ++ all_named "enum" vs)%list
      /\ in_order enum_value l vs
  | DSimple n t c => exists y, v = Object "SimpleDefinition" (("type_name", text_value n) :: ("asn_type", y) :: comment_attr "comment" c)
      /\ type_value t y
  end.

Definition import_value (i : import_item) : value := Object "ImportItem" (
  all_named "definitions" (map text_value (imp_names i)) ++
  ("module_name", text_value (imp_module i)) :: comment_attr "comment" (imp_comment i))%list.

Definition module_value (m : module) (v : value) : Prop := exists vs,
  v = Object "Asn1Module" (
    ("module_name", text_value (mod_name m)) :: comment_attr "comment" (mod_comment m) ++
    all_named "import_items" (map import_value (mod_imports m)) ++
    comment_attr "comment_import" (mod_comment_import m) ++
    all_named "definitions" vs)%list
  /\ Forall2 definition_value (mod_defs m) vs.
