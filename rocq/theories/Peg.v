(** * The grammar of asn1/grammar.py, as it is written, and its meaning

    [rules] is grammar.py 1-142 rule by rule.  [Parses] is the meaning textX
    and Arpeggio give to such rules, on texts of Unicode code points:
    alternatives in order, repetitions and options greedy and not undone,
    blanks skipped before every string or regular expression unless a rule
    switches this off for everything below it.  A rule with assignments builds
    an object with the values assigned, in the order of the text; a rule
    without them stands for the text matched, or for the object built by the
    rule it refers to.  Source positions, parent links and default values of
    attributes are left out. *)
From Verif Require Import Base Regex.
Open Scope string_scope.

Inductive peg : Type :=
| Lit (t : string)                     (* 'text' *)
| Rx (r : regex)                       (* /regular expression/ *)
| Cat (a b : peg)                      (* a b *)
| Choose (a b : peg)                   (* a | b *)
| Rep (a : peg)                        (* (a)* *)
| Optional (a : peg)                   (* (a)? *)
| Rule (n : string)
| Attr (n : string) (a : peg)          (* n=a *)
| End.                                 (* end of the input *)

Inductive value : Type :=
| Text (t : list N)
| Object (rule : string) (attributes : list (string * value)).
Definition attributes : Type := list (string * value).
(** The assignments made and the value, if an assignment asks for it. *)
Definition output : Type := attributes * value.
Definition no_value : value := Text [].
Definition both (a b : output) : output := ((fst a ++ fst b)%list, no_value).

(** A rule: does it switch off the skipping of blanks, does it build an
    object, its right-hand side. *)
Record rule : Type := mkrule { r_noskipws : bool; r_object : bool; r_body : peg }.

(** ** Meaning *)
Definition blank (c : N) : bool := (c =? 9)%N || (c =? 10)%N || (c =? 13)%N || (c =? 32)%N.
Fixpoint skip_blank (p : option N) (s : list N) : state :=
  match s with
  | c :: r => if blank c then skip_blank (Some c) r else (p, s)
  | [] => (p, s)
  end.
Definition start (ws : bool) (x : state) : state := if ws then skip_blank (fst x) (snd x) else x.
Fixpoint strip (t : list N) (x : state) : option state :=
  match t with
  | [] => Some x
  | c :: t' => match snd x with
               | d :: s => if (c =? d)%N then strip t' (Some d, s) else None
               | [] => None
               end
  end.
(** What was matched between [x] and [y]. *)
Definition between (x y : state) : list N := firstn (List.length (snd x) - List.length (snd y)) (snd x).

Section Meaning.
Variable rules : string -> option rule.
Inductive Parses : peg -> bool -> state -> option (output * state) -> Prop :=
| P_lit : forall t ws x,
    Parses (Lit t) ws x (option_map (fun y => (([], Text (codes t)), y)) (strip (codes t) (start ws x)))
| P_rx : forall r ws x,
    Parses (Rx r) ws x (option_map (fun y => (([], Text (between (start ws x) y)), y)) (hd_error (matches r (start ws x))))
| P_cat : forall a b ws x o y o' z, Parses a ws x (Some (o, y)) -> Parses b ws y (Some (o', z)) ->
    Parses (Cat a b) ws x (Some (both o o', z))
| P_cat_no1 : forall a b ws x, Parses a ws x None -> Parses (Cat a b) ws x None
| P_cat_no2 : forall a b ws x o y, Parses a ws x (Some (o, y)) -> Parses b ws y None -> Parses (Cat a b) ws x None
| P_first : forall a b ws x o, Parses a ws x (Some o) -> Parses (Choose a b) ws x (Some o)
| P_second : forall a b ws x r, Parses a ws x None -> Parses b ws x r -> Parses (Choose a b) ws x r
| P_stop : forall a ws x, Parses a ws x None -> Parses (Rep a) ws x (Some (([], no_value), x))
| P_more : forall a ws x o y o' z, Parses a ws x (Some (o, y)) -> Parses (Rep a) ws y (Some (o', z)) ->
    Parses (Rep a) ws x (Some (both o o', z))
| P_there : forall a ws x o, Parses a ws x (Some o) -> Parses (Optional a) ws x (Some o)
| P_absent : forall a ws x, Parses a ws x None -> Parses (Optional a) ws x (Some (([], no_value), x))
| P_rule : forall n r ws x o y, rules n = Some r -> Parses (r_body r) (if r_noskipws r then false else ws) x (Some (o, y)) ->
    Parses (Rule n) ws x (Some (([], if r_object r then Object n (fst o) else snd o), y))
| P_rule_no : forall n r ws x, rules n = Some r -> Parses (r_body r) (if r_noskipws r then false else ws) x None ->
    Parses (Rule n) ws x None
| P_attr : forall n a ws x o y, Parses a ws x (Some (o, y)) -> Parses (Attr n a) ws x (Some (([(n, snd o)], snd o), y))
| P_attr_no : forall n a ws x, Parses a ws x None -> Parses (Attr n a) ws x None
| P_end : forall ws x, Parses End ws x (match snd (start ws x) with [] => Some (([], no_value), start ws x) | _ => None end).
End Meaning.

(** ** The rules *)
Infix "#" := Cat (at level 61, right associativity).
Infix "//" := Choose (at level 62, right associativity).
Coercion Lit : string >-> peg.
Definition comment_opt : peg := Optional (Attr "comment" (Rule "Asn1Comment")).
Definition range_of (n sep : string) : peg :=
  Optional ("(" # Attr "begin" (Rule n) # sep # Attr "end" (Rule n) # ")").
Definition object (body : peg) : rule := mkrule false true body.
Definition token_rule (r : regex) : rule := mkrule false false (Rx r).

Section Rules.
Variables digit word : N -> bool.
Definition component_values : peg :=
  "(" # Attr "value" (Rule "INT") # ")"
  // "(" # Attr "value" (Rule "STRICTFLOAT") # ")"
  // "(" # Attr "value" "TRUE" # ")"
  // "(" # Attr "value" "FALSE" # ")"
  // Attr "value" (Rule "WithComponents").
Definition grammar : list (string * rule) := [
  (* 2-8 *)
  ("Asn1Module", object (
    "Module-" # Attr "module_name" (Rule "NameLower") #
      "DEFINITIONS AUTOMATIC TAGS ::= BEGIN" # comment_opt #
      Optional ("IMPORTS" # (Attr "import_items" (Rule "ImportItem") # Rep (Attr "import_items" (Rule "ImportItem"))) # ";"
                # Optional (Attr "comment_import" (Rule "Asn1Comment"))) #
      (Attr "definitions" (Rule "Definitions") # Rep (Attr "definitions" (Rule "Definitions"))) #
    "END"));
  (* 10-14 *)
  ("ImportItem", object (
    (Attr "definitions" (Rule "NameCapital") # Rep ("," # Attr "definitions" (Rule "NameCapital"))) #
    "FROM Module-" # Attr "module_name" (Rule "NameLower") # comment_opt));
  (* 16-25 *)
  ("Asn1Comment", mkrule true true (
    Rep " " # "--" # Rep " " #
    Optional (Attr "is_little_endian" "ENDIANNESS(LITTLE)") # Rep " " #
    Optional ("[" # Attr "unit" (Rx (unit_regex digit)) # "]") # Rep " " #
    Optional (Attr "comment" (Rx comment_regex))));
  (* 27-33 *)
  ("NameLower", token_rule (name_lower_regex digit));
  ("NameCapital", token_rule (name_capital_regex digit));
  (* 35-37 *)
  ("Definitions", mkrule false false (Rule "Choice" // Rule "Enumerated" // Rule "Sequence" // Rule "SimpleDefinition"));
  (* 39-44 *)
  ("Enumerated", object (
    Attr "type_name" (Rule "NameCapital") # "::= ENUMERATED {" # comment_opt #
      Rep (Attr "enum" (Rule "EnumeratedItemNotLast")) # Attr "enum" (Rule "EnumeratedItemLast") # "}"));
  (* 46-52 *)
  ("EnumeratedItemNotLast", object (
    Attr "key" (Rule "NameLower") # Optional ("(" # Attr "pos" (Rule "INT") # ")") # "," # comment_opt));
  ("EnumeratedItemLast", object (
    Attr "key" (Rule "NameLower") # Optional ("(" # Attr "pos" (Rule "INT") # ")") # comment_opt));
  (* 54-62 *)
  ("Asn1Type", mkrule true true (
    " " # Attr "type_name" "REAL" # range_of "STRICTFLOAT" " .. "
    // " " # Attr "type_name" "INTEGER" # range_of "INT" ".."
    // " " # Attr "type_name" "NULL"
    // " " # Attr "type_name" "BOOLEAN"
    // " " # Attr "type_name" (Rule "Asn1String")
    // " " # Attr "type_name" (Rule "Array")
    // " " # Attr "type_name" (Rule "NameCapital")));
  (* 64-86 *)
  ("KeyTypePairNotLast", object (
    (Attr "key" (Rule "NameLower") # Attr "asn_type" (Rule "Asn1Type") # "," # comment_opt)
    // (Attr "key" (Rule "NameLower") # Attr "asn_type" (Rule "Asn1Type") # comment_opt
        # Attr "with_components" (Rule "WithComponents") # ",")));
  ("KeyTypePairLast", object (
    Attr "key" (Rule "NameLower") # Attr "asn_type" (Rule "Asn1Type") # comment_opt
    # Optional (Attr "with_components" (Rule "WithComponents"))));
  (* 88-93 *)
  ("WithComponents", object (
    "(WITH COMPONENTS {" # comment_opt # Rep (Attr "components" (Rule "ComponentsItemNotLast"))
    # Attr "components" (Rule "ComponentsItemLast") # "})"));
  (* 95-113 *)
  ("ComponentsItemNotLast", object (Attr "key" (Rule "NameLower") # component_values # "," # comment_opt));
  ("ComponentsItemLast", object (Attr "key" (Rule "NameLower") # component_values # comment_opt));
  (* 115-127 *)
  ("Choice", object (
    Attr "type_name" (Rule "NameCapital") # "::= CHOICE {" # comment_opt #
      Rep (Attr "choice" (Rule "KeyTypePairNotLast")) # Attr "choice" (Rule "KeyTypePairLast") # "}"));
  ("Sequence", object (
    Attr "type_name" (Rule "NameCapital") # "::= SEQUENCE {" # comment_opt #
      Rep (Attr "seq" (Rule "KeyTypePairNotLast")) # Attr "seq" (Rule "KeyTypePairLast") # "}"));
  (* 129-131 *)
  ("SimpleDefinition", object (
    Attr "type_name" (Rule "NameCapital") # "::=" # Attr "asn_type" (Rule "Asn1Type") # comment_opt));
  (* 133-135 *)
  ("Array", object ("SEQUENCE (SIZE (" # Attr "length" (Rule "INT") # ")) OF" # Attr "asn_type" (Rule "Asn1Type")));
  (* 138-141 *)
  ("Asn1String", object (
    (Attr "type_name" "IA5String" // Attr "type_name" "NumericString") # " (SIZE (" # Attr "length" (Rule "INT") # "))"));
  (* textX *)
  ("INT", token_rule (int_regex word));
  ("STRICTFLOAT", token_rule (strictfloat_regex digit word))].

Fixpoint find_rule (l : list (string * rule)) (n : string) : option rule :=
  match l with
  | [] => None
  | (m, r) :: l' => if String.eqb m n then Some r else find_rule l' n
  end.
Definition rules : string -> option rule := find_rule grammar.

(** textX reads a module from a text: the first rule, then the end. *)
Definition parse_result (text : list N) (o : option value) : Prop :=
  exists r, Parses rules (Attr "module" (Rule "Asn1Module") # End) true (None, text) r
    /\ o = match r with Some (([(_, v)], _), _) => Some v | _ => None end.
End Rules.
