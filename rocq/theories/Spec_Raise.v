(** * Specification: what the exception says that a faulty input ends with (C102) *)
From Verif Require Import Base PyNum PyStr Ast Spec_Enum Spec_Num Spec_Check Spec_Bundle Spec_Message.
Open Scope string_scope.

(** ** Comments that belong to a key *)
Fixpoint keyed_value (v : wval) : list (string * comment) :=
  match v with VWith w => keyed_clause w | _ => [] end
with keyed_clause (w : wcomps) : list (string * comment) :=
  match w with
  | WC _ l =>
      (fix go (l : list witem) : list (string * comment) :=
         match l with
         | [] => []
         | i :: r => (keyed_item i ++ go r)%list
         end) l
  end
with keyed_item (i : witem) : list (string * comment) :=
  match i with WI k v c => (keyed_value v ++ map (pair k) (opt_list c))%list end.
Definition keyed_member (k : member) : list (string * comment) :=
  (map (pair (m_key k)) (opt_list (m_comment k)) ++ match m_with k with Some w => keyed_clause w | None => [] end)%list.
Definition keyed_comments (d : definition) : list (string * comment) :=
  match d with
  | DSequence _ _ l | DChoice _ _ l => flat_map keyed_member l
  | DEnumerated _ _ l => flat_map (fun e => map (pair (e_key e)) (opt_list (e_comment e))) l
  | DSimple _ _ _ => []
  end.

(** The first of the forbidden signs that occurs. *)
Definition first_sign (text sign : string) : Prop :=
  exists a b, ["["; "]"; "--"] = (a ++ sign :: b)%list /\ occurs sign text /\ Forall (fun s => ~ occurs s text) a.

(** ** One type *)
Inductive type_raises : asn_type -> error -> string -> Prop :=
| reversed_integer : forall b e, (e < b)%Z ->
    type_raises (TInteger (Some (b, e))) ValueErr ("end: " ++ str_of_Z e ++ " is less then begin: " ++ str_of_Z b)
| reversed_real : forall b e, ~ double_le (fval b) (fval e) ->
    type_raises (TReal (Some (b, e))) ValueErr ("end: " ++ frepr e ++ " is less then begin: " ++ frepr b)
| infinite_real : forall b e, double_le (fval b) (fval e) -> ~ (finite (fval b) /\ finite (fval e)) ->
    type_raises (TReal (Some (b, e))) FloatingPointErr (frepr b ++ " or " ++ frepr e ++ " are out of double range").

(** ** One definition *)
Inductive definition_raises (d : definition) : error -> string -> Prop :=
| raises_type : forall t s e text, In t (definition_types d) -> In s (subtypes t) -> type_raises s e text ->
    definition_raises d e text
| raises_comment : forall k c sign, In (k, c) (keyed_comments d) -> first_sign (cm_text c) sign ->
    definition_raises d TextXSyntaxError
      ("Comment for " ++ quoted k ++ " contains an invalid sign " ++ quoted sign ++ ": " ++ quoted (cm_text c))
| raises_sum : forall n c l, d = DEnumerated n c l -> fold_right Z.add 0%Z (map number l) <> 0%Z ->
    fold_right Z.add 0%Z (map number l) <> fold_right Z.add 0%Z (upto (length l)) ->
    definition_raises d IndexErr "Some indices are not present, multiple times or out of bounds"
(** Items take the place of their number from the front, or from the back. *)
| raises_twice : forall n c l x e1 y e2 z, d = DEnumerated n c l -> fold_right Z.add 0%Z (map number l) <> 0%Z ->
    l = (x ++ e1 :: y ++ e2 :: z)%list ->
    number e1 = number e2 \/ number e1 = (number e2 + Z.of_nat (length l))%Z \/ number e2 = (number e1 + Z.of_nat (length l))%Z ->
    definition_raises d IndexErr ("index " ++ quoted (str_of_Z (number e2)) ++ " is defined multiple times").

(** ** One module

    Everything before the definition is in order. *)
Definition module_raises (m : module) (e : error) (text : string) : Prop :=
  exists a d b, mod_defs m = (a ++ d :: b)%list
    /\ Forall clean (opt_list (mod_comment m) ++ flat_map (fun i => opt_list (imp_comment i)) (mod_imports m) ++ opt_list (mod_comment_import m))
    /\ Forall clean (flat_map definition_comments a) /\ Forall definition_valid a
    /\ definition_raises d e text.

(** ** Modules together: one of them imports from modules that are not given. *)
Definition imports_raise (ms : list module) (text : string) : Prop :=
  exists m l, In m ms
    /\ lists (fun n => (exists it, In it (mod_imports m) /\ imp_module it = n) /\ ~ In n (map mod_name ms)) l
    /\ text = "Module " ++ quoted (mod_name m) ++ " uses undeclared dependencies {" ++ String.concat ", " (map quoted l) ++ "}".

(** ** Enumerations whose numbers have a place, from the front or from the back *)
Definition in_places (d : definition) : Prop :=
  forall n c l e, d = DEnumerated n c l -> In e l -> (- Z.of_nat (length l) <= number e < Z.of_nat (length l))%Z.
