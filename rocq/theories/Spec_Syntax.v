(** * Which texts spell which module

    The language of asn1/grammar.py, said by recursion on the objects instead
    of by parsing.  A spelling is a relation between a text and what is left
    of it: [type_at t s r] says that the text [s] begins with a spelling of
    the type [t] and goes on with [r].  Alternatives are not ordered, options
    and repetitions are not greedy; only the lexical rules (where a name, a
    number or a comment ends) look at what follows. *)
From Coq Require Import DecimalString.
From Verif Require Import Base PyNum PyFloat PyStr Ast Spec_Grammar.
Open Scope string_scope.

Definition step := string -> string -> Prop.
Definition followed_by (P Q : step) : step := fun s r => exists m, P s m /\ Q m r.
Declare Scope step_scope.
Delimit Scope step_scope with step.
Infix ">>" := followed_by (at level 60, right associativity) : step_scope.
Open Scope step_scope.

Definition nothing : step := fun s r => s = r.
Definition text (t : string) : step := fun s r => s = t ++ r.

(** Blanks: space, line feed, carriage return, tab. *)
Definition blank_char (c : ascii) : bool :=
  match N_of_ascii c with 32 | 10 | 13 | 9 => true | _ => false end%N.
Definition blanks : step := fun s r => exists b, all_chars blank_char b = true /\ s = b ++ r.
Definition word (t : string) : step := blanks >> text t.

(** No character satisfying [f] comes next. *)
Definition not_next (f : ascii -> bool) (s : string) : Prop :=
  match s with String c _ => f c = false | EmptyString => True end.

(** ** Names: as long as possible *)
Definition name_ends (s : string) : Prop :=
  match s with
  | String c r => name_char c = false /\ (c = "-"%char -> not_next name_char r)
  | EmptyString => True
  end.
Definition capital_here (n : string) : step :=
  fun s r => is_name_capital n = true /\ s = n ++ r /\ name_ends r.
Definition capital (n : string) : step := blanks >> capital_here n.
Definition lower_case (n : string) : step :=
  blanks >> fun s r => is_name_lower n = true /\ s = n ++ r /\ name_ends r.

(** ** Numbers *)
Definition letter_digit_underscore (c : ascii) : bool :=
  is_lower c || is_upper c || is_digit c || Ascii.eqb c "_".

(** [ds] is a non-empty string of decimal digits, its value is [n]. *)
Definition decimal (ds : string) (n : Z) : Prop :=
  ds <> "" /\ all_chars is_digit ds = true /\
  exists u, NilEmpty.uint_of_string ds = Some u /\ n = Z.of_uint u.

Definition signs (neg : bool) (s : string) : Prop :=
  if neg then s = "-" else s = "" \/ s = "+".

Definition int_here (z : Z) : step := fun s r =>
  exists neg sg ds n,
    signs neg sg /\ decimal ds n /\ s = sg ++ ds ++ r
    /\ not_next letter_digit_underscore r
    /\ z = if neg then (- n)%Z else n.

(** Digits with a decimal point, or an exponent, or both. [py_float neg n x]
    is Python's float for [n * 10^x]. *)
Definition float_here (f : pyfloat) : step := fun s r =>
  exists neg sg ds fs n point expo x,
    signs neg sg /\ decimal (ds ++ fs) n
    /\ (point = "" /\ fs = "" \/ point = ".")
    /\ (expo = "" /\ x = 0%Z
        \/ exists e neg' sg' xs y, (e = "e" \/ e = "E") /\ signs neg' sg' /\ decimal xs y
             /\ expo = e ++ sg' ++ xs /\ x = if neg' then (- y)%Z else y)
    /\ (point <> "" \/ expo <> "")
    /\ s = sg ++ ds ++ point ++ fs ++ expo ++ r
    /\ not_next (fun c => letter_digit_underscore c || Ascii.eqb c ".") r
    /\ f = py_float neg n (x - Z.of_nat (String.length fs)).

(** ** Comments: on the rest of the line *)
Definition spaces : step := fun s r => exists n, s = repeat_str n " " ++ r.
Definition no_space (s : string) : Prop := not_next (Ascii.eqb " ") s.

(** There is a comment text here: only comment characters up to the end of
    the line. *)
Definition line_ends (s : string) : Prop := s = "" \/ exists r, s = NL ++ r.
Definition text_here (t s r : string) : Prop :=
  t <> "" /\ all_chars comment_char t = true /\ s = t ++ r /\ line_ends r.
Definition unit_here (u s r : string) : Prop :=
  u <> "" /\ all_chars unit_char u = true /\ s = "[" ++ u ++ "]" ++ r.

(** "--", the mark of little-endian data, the unit in brackets, the text; each
    of the three is read whenever it is there. *)
Definition comment_at (c : comment) : step := fun s r =>
  exists s1 s2 s3,
    (spaces >> text "--" >> spaces) s s1 /\ no_space s1
    /\ (if cm_little_endian c then (text "ENDIANNESS(LITTLE)" >> spaces) s1 s2
        else s2 = s1 /\ forall x, ~ text "ENDIANNESS(LITTLE)" s1 x)
    /\ no_space s2
    /\ (if String.eqb (cm_unit c) ""
        then s3 = s2 /\ forall u x, ~ unit_here u s2 x
        else (unit_here (cm_unit c) >> spaces) s2 s3)
    /\ no_space s3
    /\ (if String.eqb (cm_text c) ""
        then r = s3 /\ forall t x, ~ text_here t s3 x
        else text_here (cm_text c) s3 r).
Definition comment_opt_at (c : option comment) : step :=
  match c with Some c => comment_at c | None => nothing end.

(** ** Types: a single space before, no blanks inside *)
Fixpoint type_at (t : asn_type) : step :=
  text " " >>
  match t with
  | TReal None => text "REAL"
  | TReal (Some (b, e)) =>
      text "REAL(" >> float_here b >> text " .. " >> float_here e >> text ")"
  | TInteger None => text "INTEGER"
  | TInteger (Some (b, e)) =>
      text "INTEGER(" >> int_here b >> text ".." >> int_here e >> text ")"
  | TNull => text "NULL"
  | TBoolean => text "BOOLEAN"
  | TString IA5String n => text "IA5String (SIZE (" >> int_here n >> text "))"
  | TString NumericString n => text "NumericString (SIZE (" >> int_here n >> text "))"
  | TArray n e => text "SEQUENCE (SIZE (" >> int_here n >> text ")) OF" >> type_at e
  | TName n => capital_here n
  end.

Definition int_at (z : Z) : step := blanks >> int_here z.
Definition float_at (f : pyfloat) : step := blanks >> float_here f.

(** ** Lists with a comma after every item but the last.  The comment of an
    item comes after the comma. *)
Section Items.
  Context {A : Type} (item : A -> step) (cm : A -> option comment).
  Fixpoint items (l : list A) : step :=
    match l with
    | [] => fun _ _ => False
    | x :: l' =>
        match l' with
        | [] => item x >> comment_opt_at (cm x)
        | _ => item x >> word "," >> comment_opt_at (cm x) >> items l'
        end
    end.
End Items.

(** ** WITH COMPONENTS *)
Fixpoint value_at (v : wval) : step :=
  match v with
  | VInt z => word "(" >> int_at z >> word ")"
  | VFloat f => word "(" >> float_at f >> word ")"
  | VBool true => word "(" >> word "TRUE" >> word ")"
  | VBool false => word "(" >> word "FALSE" >> word ")"
  | VWith w => clause_at w
  end
with clause_at (w : wcomps) : step :=
  match w with
  | WC c l =>
      word "(WITH COMPONENTS {" >> comment_opt_at c >> items component_at wi_comment l
      >> word "})"
  end
with component_at (i : witem) : step :=
  match i with
  | WI k v _ => lower_case k >> value_at v
  end.

(** ** Members: with a clause, the comment comes before it, otherwise after
    the comma *)
Definition member_at (m : member) : step := lower_case (m_key m) >> type_at (m_type m).
Fixpoint members_at (l : list member) : step :=
  match l with
  | [] => fun _ _ => False
  | m :: l' =>
      member_at m >>
      match m_with m, l' with
      | None, [] => comment_opt_at (m_comment m)
      | None, _ => word "," >> comment_opt_at (m_comment m) >> members_at l'
      | Some w, [] => comment_opt_at (m_comment m) >> clause_at w
      | Some w, _ => comment_opt_at (m_comment m) >> clause_at w >> word "," >> members_at l'
      end
  end.

Definition enum_item_at (e : enum_item) : step :=
  lower_case (e_key e) >>
  match e_written e with
  | Some z => word "(" >> int_at z >> word ")"
  | None => nothing
  end.

(** ** Definitions *)
Definition definition_at (d : definition) : step :=
  capital (def_name d) >>
  match d with
  | DSequence _ c l =>
      word "::= SEQUENCE {" >> comment_opt_at c >> members_at l >> word "}"
  | DChoice _ c l =>
      word "::= CHOICE {" >> comment_opt_at c >> members_at l >> word "}"
  | DEnumerated _ c l =>
      word "::= ENUMERATED {" >> comment_opt_at c >> items enum_item_at e_comment l >> word "}"
  | DSimple _ t c => word "::=" >> type_at t >> comment_opt_at c
  end.

(** One or more. *)
Fixpoint all_at {A} (item : A -> step) (l : list A) : step :=
  match l with
  | [] => nothing
  | x :: l' => item x >> all_at item l'
  end.

Fixpoint names_at (l : list string) : step :=
  match l with
  | [] => fun _ _ => False
  | n :: l' => capital n >> match l' with [] => nothing | _ => word "," >> names_at l' end
  end.
Definition import_at (i : import_item) : step :=
  names_at (imp_names i) >> word "FROM Module-" >> lower_case (imp_module i)
  >> comment_opt_at (imp_comment i).
Definition imports_at (m : module) : step :=
  match mod_imports m with
  | [] => fun s r => mod_comment_import m = None /\ s = r
  | l => word "IMPORTS" >> all_at import_at l >> word ";" >> comment_opt_at (mod_comment_import m)
  end.

Definition module_at (m : module) : step :=
  word "Module-" >> lower_case (mod_name m)
  >> word "DEFINITIONS AUTOMATIC TAGS ::= BEGIN" >> comment_opt_at (mod_comment m)
  >> imports_at m
  >> (fun s r => mod_defs m <> [] /\ all_at definition_at (mod_defs m) s r)
  >> word "END".

(** The whole text. *)
Definition spells (s : string) (m : module) : Prop := (module_at m >> blanks) s "".

(** ** Modules that can be written down *)

(** The text of a comment does not begin with a space, nor with what would be
    taken for a unit or for the mark of little-endian data. *)
Definition plain_comment (c : comment) : Prop :=
  no_space (cm_text c)
  /\ (cm_unit c = "" -> forall u x, ~ unit_here u (cm_text c) x)
  /\ (cm_unit c = "" -> cm_little_endian c = false -> forall x, ~ text "ENDIANNESS(LITTLE)" (cm_text c) x).
Definition plain_comment_opt (c : option comment) : Prop :=
  match c with Some c => plain_comment c | None => True end.

Fixpoint value_writable (v : wval) : Prop :=
  match v with
  | VWith (WC c l) => plain_comment_opt c /\ fold_right (fun i p => component_writable i /\ p) True l
  | _ => True
  end
with component_writable (i : witem) : Prop :=
  match i with WI _ v c => value_writable v /\ plain_comment_opt c end.
Definition clause_writable (w : wcomps) : Prop := value_writable (VWith w).

Definition member_writable (m : member) : Prop :=
  plain_comment_opt (m_comment m)
  /\ match m_with m with Some w => clause_writable w | None => True end.
Definition definition_writable (d : definition) : Prop :=
  match d with
  | DSequence _ c l | DChoice _ c l => plain_comment_opt c /\ Forall member_writable l
  | DEnumerated _ c l => plain_comment_opt c /\ Forall (fun e => plain_comment_opt (e_comment e)) l
  | DSimple _ _ c => plain_comment_opt c
  end.
Definition writable (m : module) : Prop :=
  plain_comment_opt (mod_comment m) /\ plain_comment_opt (mod_comment_import m)
  /\ (mod_imports m = [] -> mod_comment_import m = None)
  /\ Forall (fun i => plain_comment_opt (imp_comment i)) (mod_imports m)
  /\ Forall definition_writable (mod_defs m).
