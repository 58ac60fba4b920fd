(** * The text of the grammar: asn1/grammar.py, read as textX reads it

    [grammar_literal] is what stands between the quotes in grammar.py 1-142,
    character by character.  [read_grammar] reads rules in the language of
    textX 2.3 (textx/lang.py), as far as it is used here: a rule is a name,
    possibly [noskipws], and alternatives of sequences of string matches,
    regular expression matches, references, groups and assignments, with the
    operators of repetition.  [read_regex] reads the regular expressions.
    Everything else is refused: predicates, match suppression, other rule
    parameters, escapes in string matches, links to objects. *)
From Verif Require Import Base PyStr Regex Peg.
Open Scope string_scope.

Definition grammar_literal : string :=
"
Asn1Module:
  'Module-'module_name=NameLower
    'DEFINITIONS AUTOMATIC TAGS ::= BEGIN'(comment=Asn1Comment)?
    ('IMPORTS' import_items+=ImportItem ';' (comment_import=Asn1Comment)?)?
    definitions+=Definitions
  'END'
;

ImportItem:
  definitions+=NameCapital[',']
  'FROM Module-'module_name=NameLower
  (comment=Asn1Comment)?
;

Asn1Comment[noskipws]:
  (' ')*
  '--'
  (' ')*
  is_little_endian?='ENDIANNESS(LITTLE)'
  (' ')*
  ('[' unit=/[%A-Za-z\\d\\/\\^]+/ ']')?
  (' ')*
  (comment=/[A-Za-z0-9\\*\\(\\)\\.\\/%:, -_]+$/)?
;

NameLower:
  /[a-z][a-z\\d]*(-[a-z\\d]+)*/
;

NameCapital:
  /[A-Z][a-z\\d]*(-[a-z\\d]+)*/
;

Definitions:
  Choice | Enumerated | Sequence | SimpleDefinition
;

Enumerated:
  type_name=NameCapital '::= ENUMERATED {'(comment=Asn1Comment)?
    (enum=EnumeratedItemNotLast)*
    enum=EnumeratedItemLast
  '}'
;

EnumeratedItemNotLast:
  key=NameLower ('('pos=INT')')? (',') (comment=Asn1Comment)?
;

EnumeratedItemLast:
  key=NameLower ('('pos=INT')')? (comment=Asn1Comment)?
;

Asn1Type[noskipws]:
  ' 'type_name='REAL'('('begin=STRICTFLOAT' .. 'end=STRICTFLOAT')')? |
  ' 'type_name='INTEGER'('('begin=INT'..'end=INT')')? |
  ' 'type_name='NULL' |
  ' 'type_name='BOOLEAN' |
  ' 'type_name=Asn1String |
  ' 'type_name=Array |
  ' 'type_name=NameCapital // TODO: correct to match exactly a defined typ
;

KeyTypePairNotLast:
  (
    key=NameLower
    asn_type=Asn1Type
    ','
    (comment=Asn1Comment)?
  ) | (
    key=NameLower
    asn_type=Asn1Type
    (comment=Asn1Comment)?
    with_components=WithComponents
    ','
  )
;

KeyTypePairLast:
  (
    key=NameLower
    asn_type=Asn1Type
    (comment=Asn1Comment)?
    (with_components=WithComponents)?
  )
;

WithComponents:
  '(WITH COMPONENTS {' (comment=Asn1Comment)?
    (components=ComponentsItemNotLast)*
    components=ComponentsItemLast
  '})'
;

ComponentsItemNotLast:
  key=NameLower (
    '(' value=INT ')' |
    '(' value=STRICTFLOAT ')' |
    '(' value='TRUE' ')' |
    '(' value='FALSE' ')' |
    value=WithComponents
  ) (',') (comment=Asn1Comment)?
;

ComponentsItemLast:
  key=NameLower (
    '(' value=INT ')' |
    '(' value=STRICTFLOAT ')' |
    '(' value='TRUE' ')' |
    '(' value='FALSE' ')' |
    value=WithComponents
  ) (comment=Asn1Comment)?
;

Choice:
  type_name=NameCapital '::= CHOICE {'(comment=Asn1Comment)?
    (choice=KeyTypePairNotLast)*
    choice=KeyTypePairLast
  '}'
;

Sequence:
  type_name=NameCapital '::= SEQUENCE {'(comment=Asn1Comment)?
    (seq=KeyTypePairNotLast)*
    seq=KeyTypePairLast
  '}'
;

SimpleDefinition:
  type_name=NameCapital '::=' asn_type=Asn1Type (comment=Asn1Comment)?
;

Array:
  'SEQUENCE (SIZE ('length=INT')) OF' asn_type=Asn1Type
;
// TODO check whether SEQUENCE OF SEQUENCE OF ... is allowed in ASN.1

Asn1String:
  (type_name='IA5String' | type_name='NumericString')
  ' (SIZE ('length=INT'))'
;
".

(** The literal is no raw string: two backslashes stand for one. *)
Fixpoint unescape (s : string) : option string :=
  match s with
  | "" => Some ""
  | String "\" (String "\" r) => option_map (String "\") (unescape r)
  | String "\" _ => None
  | String c r => option_map (String c) (unescape r)
  end.

(** ** Regular expressions *)

(** What can stand in a class. *)
Inductive citem : Set :=
| IChar (c : ascii)
| IRange (a b : ascii)
| IDigit                               (* \d *)
| IWord.                               (* \w *)
Inductive sregex : Set :=
| SClass (l : list citem)
| SThen (a b : sregex)
| SOr (a b : sregex)
| SStar (a : sregex)
| SMaybe (a : sregex)
| SPlus (a : sregex)
| SLineEnd
| SEdge
| SBehind (l : list citem)
| SNotAhead (l : list citem).

(** The rest of a class up to its closing bracket. *)
Definition class_escape (c : ascii) : option citem :=
  if Ascii.eqb c "d" then Some IDigit
  else if Ascii.eqb c "w" then Some IWord
  else if mem (String c "") ["/"; "^"; "*"; "("; ")"; "."] then Some (IChar c)
  else None.
Fixpoint read_class (s : string) : option (list citem * string) :=
  match s with
  | "" => None
  | String "]" r => Some ([], r)
  | String "\" (String c r) =>
      match class_escape c, read_class r with
      | Some i, Some (l, r') => Some (i :: l, r')
      | _, _ => None
      end
  | String a (String "-" (String "]" r)) => Some ([IChar a; IChar "-"], r)
  | String a (String "-" (String b r)) =>
      if (N_of_ascii a <=? N_of_ascii b)%N then
        match read_class r with
        | Some (l, r') => Some (IRange a b :: l, r')
        | None => None
        end
      else None
  | String a r =>
      match read_class r with
      | Some (l, r') => Some (IChar a :: l, r')
      | None => None
      end
  end.
(** A class, after its opening bracket; classes of the form [^...] are
    refused. *)
Definition read_set (s : string) : option (list citem * string) :=
  match s with
  | String "^" _ => None
  | _ => read_class s
  end.

(** A parenthesis behind these is read as alternatives. *)
Definition seq_ends (s : string) : bool :=
  match s with
  | "" => true
  | String c _ => Ascii.eqb c ")" || Ascii.eqb c "|"
  end.
(** Alternatives, a sequence, one element with its operator; every call takes
    fuel. *)
Fixpoint read_alternatives (n : nat) (s : string) : option (sregex * string) :=
  match n with
  | O => None
  | S n' =>
      match read_elements n' s with
      | Some (a, String "|" r) =>
          match read_alternatives n' r with
          | Some (b, r') => Some (SOr a b, r')
          | None => None
          end
      | x => x
      end
  end
with read_elements (n : nat) (s : string) : option (sregex * string) :=
  match n with
  | O => None
  | S n' =>
      match read_element n' s with
      | Some (a, r) =>
          if seq_ends r then Some (a, r)
          else match read_elements n' r with
               | Some (b, r') => Some (SThen a b, r')
               | None => None
               end
      | None => None
      end
  end
with read_element (n : nat) (s : string) : option (sregex * string) :=
  match n with
  | O => None
  | S n' =>
      let operator a r :=
        match r with
        | String "*" r' => Some (SStar a, r')
        | String "+" r' => Some (SPlus a, r')
        | String "?" r' => Some (SMaybe a, r')
        | _ => Some (a, r)
        end in
      match s with
      | String "[" r => match read_set r with Some (l, r') => operator (SClass l) r' | None => None end
      | String "(" (String "?" (String "<" (String "=" (String "[" r)))) =>
          match read_set r with Some (l, String ")" r') => Some (SBehind l, r') | _ => None end
      | String "(" (String "?" (String "!" (String "[" r))) =>
          match read_set r with Some (l, String ")" r') => Some (SNotAhead l, r') | _ => None end
      | String "(" r => match read_alternatives n' r with Some (a, String ")" r') => operator a r' | _ => None end
      | String "$" r => Some (SLineEnd, r)
      | String "\" (String "b" r) => Some (SEdge, r)
      | String "\" (String c r) => match class_escape c with Some i => operator (SClass [i]) r | None => None end
      | String c r =>
          if mem (String c "") ["-"; " "] || is_lower c || is_upper c || is_digit c then operator (SClass [IChar c]) r else None
      | "" => None
      end
  end.
Definition read_regex (s : string) : option sregex :=
  match read_alternatives (3 * String.length s) s with
  | Some (r, "") => Some r
  | _ => None
  end.

(** ** Rules *)
Inductive speg : Set :=
| SLit (t : string)
| SRx (r : sregex)
| SCat (a b : speg)
| SChoose (a b : speg)
| SRep (a : speg)
| SOptional (a : speg)
| SRule (n : string)
| SAttr (n : string) (a : speg).
Record srule : Set := mksrule { s_name : string; s_noskipws : bool; s_body : speg }.

Inductive token : Set :=
| KStr (s : string)                    (* 'text' *)
| KRe (s : string)                     (* /expression/ *)
| KId (s : string)
| KSym (s : string).
Definition id_char (c : ascii) : bool := is_lower c || is_upper c || is_digit c || Ascii.eqb c "_".
Definition symbol (c : ascii) : bool :=
  mem (String c "") [":"; ";"; "|"; "("; ")"; "["; "]"; "*"; "+"; "?"; "="; ","].
(** What the characters before belong to: nothing, a string, an expression, a
    name, a comment; texts are collected in reverse. *)
Inductive mode : Set :=
| MNone
| MStr (acc : string)
| MRe (acc : string)
| MId (acc : string)
| MComment.
Fixpoint reverse (acc s : string) : string :=
  match s with "" => acc | String c r => reverse (String c acc) r end.
Definition close_id (m : mode) (l : list token) : list token :=
  match m with MId acc => KId (reverse "" acc) :: l | _ => l end.
Fixpoint tokens (m : mode) (s : string) : option (list token) :=
  match m, s with
  | MStr acc, String c r =>
      if Ascii.eqb c "'" then option_map (cons (KStr (reverse "" acc))) (tokens MNone r)
      else if Ascii.eqb c "\" then None
      else tokens (MStr (String c acc)) r
  | MStr _, "" => None
  | MRe acc, String "\" (String "/" r) => tokens (MRe (String "/" (String "\" acc))) r
  | MRe acc, String c r =>
      if Ascii.eqb c "/" then option_map (cons (KRe (reverse "" acc))) (tokens MNone r)
      else tokens (MRe (String c acc)) r
  | MRe _, "" => None
  | MComment, String c r => tokens (if Ascii.eqb c LF then MNone else MComment) r
  | MId acc, String c r =>
      if id_char c then tokens (MId (String c acc)) r
      else option_map (cons (KId (reverse "" acc)))
             (if Ascii.eqb c " " || Ascii.eqb c LF then tokens MNone r
              else if Ascii.eqb c "'" then tokens (MStr "") r
              else if symbol c then option_map (cons (KSym (String c ""))) (tokens MNone r)
              else None)
  | MNone, String "/" (String "/" r) => tokens MComment r
  | MNone, String c r =>
      if Ascii.eqb c " " || Ascii.eqb c LF then tokens MNone r
      else if Ascii.eqb c "'" then tokens (MStr "") r
      else if Ascii.eqb c "/" then tokens (MRe "") r
      else if id_char c then tokens (MId (String c "")) r
      else if symbol c then option_map (cons (KSym (String c ""))) (tokens MNone r)
      else None
  | m, "" => Some (close_id m [])
  end.

(** A string match, an expression or a reference to a rule. *)
Definition read_match (ts : list token) : option (speg * list token) :=
  match ts with
  | KStr t :: r => Some (SLit t, r)
  | KRe t :: r => match read_regex t with Some x => Some (SRx x, r) | None => None end
  | KId n :: r => Some (SRule n, r)
  | _ => None
  end.
(** The separator of a list, 'n+=X[sep]' *)
Definition read_separator (ts : list token) : option (option speg * list token) :=
  match ts with
  | KSym "[" :: KStr t :: KSym "]" :: r => Some (Some (SLit t), r)
  | KSym "[" :: _ => None
  | _ => Some (None, ts)
  end.
Definition many (sep : option speg) (a : speg) : speg :=
  SCat a (SRep (match sep with Some s => SCat s a | None => a end)).
Definition body_ends (ts : list token) : bool :=
  match ts with
  | KSym s :: _ => mem s [")"; ";"; "|"]
  | [] => true
  | _ => false
  end.
Fixpoint read_choice (n : nat) (ts : list token) : option (speg * list token) :=
  match n with
  | O => None
  | S n' =>
      match read_sequence n' ts with
      | Some (a, KSym "|" :: r) =>
          match read_choice n' r with
          | Some (b, r') => Some (SChoose a b, r')
          | None => None
          end
      | x => x
      end
  end
with read_sequence (n : nat) (ts : list token) : option (speg * list token) :=
  match n with
  | O => None
  | S n' =>
      match read_part n' ts with
      | Some (a, r) =>
          if body_ends r then Some (a, r)
          else match read_sequence n' r with
               | Some (b, r') => Some (SCat a b, r')
               | None => None
               end
      | None => None
      end
  end
with read_part (n : nat) (ts : list token) : option (speg * list token) :=
  match n with
  | O => None
  | S n' =>
      let operator a r :=
        match r with
        | KSym "*" :: r' => Some (SRep a, r')
        | KSym "?" :: r' => Some (SOptional a, r')
        | KSym "+" :: r' => Some (many None a, r')
        | _ => Some (a, r)
        end in
      match ts with
      | KId x :: KSym "=" :: r =>
          match read_match r with
          | Some (a, r') => Some (SAttr x a, r')
          | None => None
          end
      | KId x :: KSym "?" :: KSym "=" :: r =>
          match read_match r with
          | Some (a, r') => Some (SOptional (SAttr x a), r')
          | None => None
          end
      | KId x :: KSym "+" :: KSym "=" :: r =>
          match read_match r with
          | Some (a, r') =>
              match read_separator r' with
              | Some (sep, r'') => Some (many sep (SAttr x a), r'')
              | None => None
              end
          | None => None
          end
      | KSym "(" :: r =>
          match read_choice n' r with
          | Some (a, KSym ")" :: r') => operator a r'
          | _ => None
          end
      | _ =>
          match read_match ts with
          | Some (a, r) => operator a r
          | None => None
          end
      end
  end.
Fixpoint read_rules (n : nat) (ts : list token) : option (list srule) :=
  match n, ts with
  | _, [] => Some []
  | O, _ => None
  | S n', KId x :: r =>
      let '(noskip, r) :=
        match r with
        | KSym "[" :: KId "noskipws" :: KSym "]" :: r' => (true, r')
        | _ => (false, r)
        end in
      match r with
      | KSym ":" :: r =>
          match read_choice (3 * List.length r) r with
          | Some (b, KSym ";" :: r') => option_map (cons (mksrule x noskip b)) (read_rules n' r')
          | _ => None
          end
      | _ => None
      end
  | _, _ => None
  end.
Definition read_grammar (s : string) : option (list srule) :=
  match tokens MNone s with
  | Some ts => read_rules (List.length ts) ts
  | None => None
  end.

(** ** Meaning *)
Section Unicode.
Variables digit word : N -> bool.
Definition item_class (i : citem) (c : N) : bool :=
  match i with
  | IChar a => char a c
  | IRange a b => range (N_of_ascii a) (N_of_ascii b) c
  | IDigit => digit c
  | IWord => word c
  end.
Definition set_class (l : list citem) (c : N) : bool := existsb (fun i => item_class i c) l.
Fixpoint regex_of (r : sregex) : regex :=
  match r with
  | SClass l => Class (set_class l)
  | SThen a b => Then (regex_of a) (regex_of b)
  | SOr a b => Or (regex_of a) (regex_of b)
  | SStar a => Star (regex_of a)
  | SMaybe a => Maybe (regex_of a)
  | SPlus a => Plus (regex_of a)
  | SLineEnd => LineEnd
  | SEdge => Edge word
  | SBehind l => Behind (set_class l)
  | SNotAhead l => NotAhead (set_class l)
  end.
Fixpoint peg_of (a : speg) : peg :=
  match a with
  | SLit t => Lit t
  | SRx r => Rx (regex_of r)
  | SCat a b => Cat (peg_of a) (peg_of b)
  | SChoose a b => Choose (peg_of a) (peg_of b)
  | SRep a => Rep (peg_of a)
  | SOptional a => Optional (peg_of a)
  | SRule n => Rule n
  | SAttr n a => Attr n (peg_of a)
  end.
(** A rule with assignments builds objects. *)
Fixpoint assigns (a : speg) : bool :=
  match a with
  | SLit _ | SRx _ | SRule _ => false
  | SCat a b | SChoose a b => assigns a || assigns b
  | SRep a | SOptional a => assigns a
  | SAttr _ _ => true
  end.
Definition rule_of (r : srule) : string * rule := (s_name r, mkrule (s_noskipws r) (assigns (s_body r)) (peg_of (s_body r))).

(** The rules textX adds, as far as the grammar refers to them: INT and
    STRICTFLOAT (textx/lang.py). *)
Definition base_types : string :=
"INT: /[-+]?[0-9]+\b/;
STRICTFLOAT: /[+-]?((\d+(\.(\d*)?)|(\.\d+))([eE][+-]?\d+)?|(\d+)([eE][+-]?\d+))(?<=[\w\.])(?![\w\.])/;".

(** All rules, from the text of the file. *)
Definition written_rules : option (list srule) :=
  match unescape grammar_literal with
  | Some s =>
      match read_grammar s, read_grammar base_types with
      | Some l, Some l' => Some (l ++ l')%list
      | _, _ => None
      end
  | None => None
  end.

(** A text is read with the first rule, then the end of the text (Peg.v,
    [parse_result]). *)
Definition written_result (text : list N) (o : option value) : Prop :=
  exists l first rest, written_rules = Some l /\ l = first :: rest
  /\ exists r, Parses (find_rule (map rule_of l)) (Attr "module" (Rule (s_name first)) # End) true (None, text) r
    /\ o = match r with Some (([(_, v)], _), _) => Some v | _ => None end.
End Unicode.
