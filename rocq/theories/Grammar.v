(** * The grammar: from the text of a module to its objects

    asn1/grammar.py 1-142, read by textX 2.3.0 (requirements.txt 6), which
    runs it on the PEG interpreter Arpeggio.  The interpreter is not part of
    the repository; the combinators below are its operators as documented:

    - alternatives are tried in order, the first that matches is kept;
    - repetitions and options are greedy and are not undone afterwards;
    - before every string or regular expression, blanks are skipped while the
      parser is in [skipws] mode; a rule marked [noskipws] switches the mode
      off for everything below it;
    - textX requires the end of the input after the first rule.

    A parser takes the mode and the remaining text.  Source positions and the
    text of error messages are left out.  Texts are ASCII. *)
From Verif Require Import Base PyNum PyFloat PyStr Ast.
Open Scope string_scope.

Definition parser (A : Type) := bool -> string -> option (A * string).

Definition ret {A} (a : A) : parser A := fun _ s => Some (a, s).

(** Arpeggio's Sequence *)
Definition andthen {A B} (p : parser A) (f : A -> parser B) : parser B :=
  fun ws s => match p ws s with
              | Some (a, r) => f a ws r
              | None => None
              end.
Notation "x <- p ;; k" := (andthen p (fun x => k))
  (at level 60, p at next level, right associativity).
Notation "p ;; k" := (andthen p (fun _ => k)) (at level 60, right associativity).

(** Arpeggio's OrderedChoice *)
Definition orelse {A} (p q : parser A) : parser A :=
  fun ws s => match p ws s with
              | Some x => Some x
              | None => q ws s
              end.

(** Arpeggio's Optional *)
Definition opt {A} (p : parser A) : parser (option A) :=
  fun ws s => match p ws s with
              | Some (a, r) => Some (Some a, r)
              | None => Some (None, s)
              end.

(** Arpeggio's ZeroOrMore.  Every body repeated in the grammar consumes a
    character, so that the length of the text bounds the repetitions. *)
Fixpoint many_n {A} (n : nat) (p : parser A) : parser (list A) :=
  fun ws s =>
    match n with
    | O => Some ([], s)
    | S n' =>
        match p ws s with
        | None => Some ([], s)
        | Some (a, r) =>
            match many_n n' p ws r with
            | Some (l, r') => Some (a :: l, r')
            | None => None
            end
        end
    end.
Definition many {A} (p : parser A) : parser (list A) :=
  fun ws s => many_n (String.length s) p ws s.

(** Rule modifier [noskipws] *)
Definition noskipws {A} (p : parser A) : parser A := fun _ s => p false s.

(** Blanks: Arpeggio's default "\t\n\r ". *)
Definition is_blank (c : ascii) : bool :=
  Ascii.eqb c " " || Ascii.eqb c LF || Ascii.eqb c "013" || Ascii.eqb c "009".
Fixpoint skip_blanks (s : string) : string :=
  match s with
  | String c r => if is_blank c then skip_blanks r else s
  | EmptyString => s
  end.

(** A string match or regular expression. *)
Definition token {A} (f : string -> option (A * string)) : parser A :=
  fun ws s => f (if ws then skip_blanks s else s).

(** [s] without the prefix [t]. *)
Fixpoint drop_prefix (t s : string) : option string :=
  match t, s with
  | EmptyString, _ => Some s
  | String c t', String d s' => if Ascii.eqb c d then drop_prefix t' s' else None
  | String _ _, EmptyString => None
  end.
Definition lit (t : string) : parser unit :=
  token (fun s => match drop_prefix t s with Some r => Some (tt, r) | None => None end).

(** The longest prefix of characters satisfying [f]. *)
Fixpoint span (f : ascii -> bool) (s : string) : string * string :=
  match s with
  | String c r => if f c then let '(a, b) := span f r in (String c a, b) else ("", s)
  | EmptyString => ("", "")
  end.

(** End of the input or of a line: "$" (Arpeggio compiles with
    re.MULTILINE). *)
Definition at_line_end (s : string) : bool :=
  match s with EmptyString => true | String c _ => Ascii.eqb c LF end.
(** \w *)
Definition word_char (c : ascii) : bool :=
  is_lower c || is_upper c || is_digit c || Ascii.eqb c "_".
Definition starts_with (f : ascii -> bool) (s : string) : bool :=
  match s with String c _ => f c | EmptyString => false end.

(** [a-z\d]*(-[a-z\d]+)* of grammar.py 27-33 *)
Fixpoint name_rest (s : string) : string * string :=
  match s with
  | EmptyString => ("", "")
  | String c r =>
      if name_char c then let '(a, b) := name_rest r in (String c a, b)
      else if Ascii.eqb c "-" && starts_with name_char r
           then let '(a, b) := name_rest r in (String c a, b)
           else ("", s)
  end.
Definition name_with (first : ascii -> bool) : parser string :=
  token (fun s => match s with
                  | String c r =>
                      if first c then let '(a, b) := name_rest r in Some (String c a, b)
                      else None
                  | EmptyString => None
                  end).
(** grammar.py 27-29, 31-33 *)
Definition NameLower : parser string := name_with is_lower.
Definition NameCapital : parser string := name_with is_upper.

(** [-+]? *)
Definition sign (s : string) : bool * string :=
  match s with
  | String c r => if Ascii.eqb c "-" then (true, r)
                  else if Ascii.eqb c "+" then (false, r) else (false, s)
  | EmptyString => (false, s)
  end.

(** textX's INT: [-+]?[0-9]+\b, converted with [int]. *)
Definition INT : parser Z :=
  token (fun s =>
    let '(neg, s1) := sign s in
    let '(ds, r) := span is_digit s1 in
    if String.eqb ds "" then None
    else if starts_with word_char r then None
    else Some ((if neg then (- digits_value 0 ds)%Z else digits_value 0 ds), r)).

(** An exponent [eE][+-]?\d+, if there is one. *)
Definition exponent (s : string) : option (Z * string) :=
  match s with
  | String c r =>
      if Ascii.eqb c "e" || Ascii.eqb c "E" then
        let '(neg, s1) := sign r in
        let '(ds, r') := span is_digit s1 in
        if String.eqb ds "" then None
        else Some ((if neg then (- digits_value 0 ds)%Z else digits_value 0 ds), r')
      else None
  | EmptyString => None
  end.

(** textX's STRICTFLOAT: an optional sign, digits with a point before, among
    or after them and an optional exponent, or digits with an exponent;
    neither a word character nor a point may follow (no shorter match can
    succeed when the longest is followed by one).  Converted with [float]. *)
Definition STRICTFLOAT : parser pyfloat :=
  token (fun s =>
    let '(neg, s1) := sign s in
    let '(ds, s2) := span is_digit s1 in
    let '(point, fs, s3) :=
      match s2 with
      | String c r => if Ascii.eqb c "." then let '(fs, r') := span is_digit r in (true, fs, r')
                      else (false, "", s2)
      | EmptyString => (false, "", s2)
      end in
    let '(has_exp, x, s4) :=
      match exponent s3 with
      | Some (x, r) => (true, x, r)
      | None => (false, 0%Z, s3)
      end in
    if String.eqb (ds ++ fs) "" then None
    else if negb (point || has_exp) then None
    else if starts_with (fun c => word_char c || Ascii.eqb c ".") s4 then None
    else Some (py_float neg (digits_value 0 (ds ++ fs))
                        (x - Z.of_nat (String.length fs)), s4)).

(** grammar.py 22 *)
Definition unit_class (c : ascii) : bool :=
  Ascii.eqb c "%" || is_upper c || is_lower c || is_digit c
  || Ascii.eqb c "/" || Ascii.eqb c "^".
Definition unit_text : parser string :=
  token (fun s => let '(a, r) := span unit_class s in
                  if String.eqb a "" then None else Some (a, r)).

(** grammar.py 24; in the class, " -_" is the range 0x20-0x5F. *)
Definition comment_class (c : ascii) : bool :=
  is_lower c || is_upper c || is_digit c
  || ((32 <=? N_of_ascii c) && (N_of_ascii c <=? 95))%N.
Definition comment_text : parser string :=
  token (fun s => let '(a, r) := span comment_class s in
                  if String.eqb a "" then None
                  else if at_line_end r then Some (a, r) else None).

(** grammar.py 16-25.  textX initialises absent attributes with "" and
    False. *)
Definition or_empty (o : option string) : string := match o with Some s => s | None => "" end.
Definition is_some {A} (o : option A) : bool := match o with Some _ => true | None => false end.
Definition Asn1Comment : parser comment := noskipws (
  many (lit " ") ;;
  lit "--" ;;
  many (lit " ") ;;
  le <- opt (lit "ENDIANNESS(LITTLE)") ;;
  many (lit " ") ;;
  u <- opt (lit "[" ;; u <- unit_text ;; lit "]" ;; ret u) ;;
  many (lit " ") ;;
  t <- opt comment_text ;;
  ret (mkcomment (or_empty t) (or_empty u) (is_some le))).

(** grammar.py 138-141 *)
Definition Asn1String : parser asn_type :=
  k <- orelse (lit "IA5String" ;; ret IA5String) (lit "NumericString" ;; ret NumericString) ;;
  lit " (SIZE (" ;; n <- INT ;; lit "))" ;;
  ret (TString k n).

(** grammar.py 54-62, 133-135 *)
Fixpoint Asn1Type (fuel : nat) : parser asn_type :=
  match fuel with
  | O => fun _ _ => None
  | S f => noskipws (
      orelse (lit " " ;; lit "REAL" ;;
              r <- opt (lit "(" ;; b <- STRICTFLOAT ;; lit " .. " ;; e <- STRICTFLOAT ;;
                        lit ")" ;; ret (b, e)) ;;
              ret (TReal r))
     (orelse (lit " " ;; lit "INTEGER" ;;
              r <- opt (lit "(" ;; b <- INT ;; lit ".." ;; e <- INT ;;
                        lit ")" ;; ret (b, e)) ;;
              ret (TInteger r))
     (orelse (lit " " ;; lit "NULL" ;; ret TNull)
     (orelse (lit " " ;; lit "BOOLEAN" ;; ret TBoolean)
     (orelse (lit " " ;; Asn1String)
     (orelse (lit " " ;; lit "SEQUENCE (SIZE (" ;; n <- INT ;; lit ")) OF" ;;
              t <- Asn1Type f ;; ret (TArray n t))
             (lit " " ;; n <- NameCapital ;; ret (TName n))))))))
  end.

(** grammar.py 46-52 *)
Definition EnumeratedItemNotLast : parser enum_item :=
  k <- NameLower ;;
  p <- opt (lit "(" ;; z <- INT ;; lit ")" ;; ret z) ;;
  lit "," ;;
  c <- opt Asn1Comment ;;
  ret (mkenum k p c).
Definition EnumeratedItemLast : parser enum_item :=
  k <- NameLower ;;
  p <- opt (lit "(" ;; z <- INT ;; lit ")" ;; ret z) ;;
  c <- opt Asn1Comment ;;
  ret (mkenum k p c).

(** grammar.py 88-113 *)
Definition component_value (clause : parser wcomps) : parser wval :=
  orelse (lit "(" ;; z <- INT ;; lit ")" ;; ret (VInt z))
 (orelse (lit "(" ;; f <- STRICTFLOAT ;; lit ")" ;; ret (VFloat f))
 (orelse (lit "(" ;; lit "TRUE" ;; lit ")" ;; ret (VBool true))
 (orelse (lit "(" ;; lit "FALSE" ;; lit ")" ;; ret (VBool false))
         (w <- clause ;; ret (VWith w))))).
Definition ComponentsItemNotLast (clause : parser wcomps) : parser witem :=
  k <- NameLower ;; v <- component_value clause ;; lit "," ;;
  c <- opt Asn1Comment ;; ret (WI k v c).
Definition ComponentsItemLast (clause : parser wcomps) : parser witem :=
  k <- NameLower ;; v <- component_value clause ;;
  c <- opt Asn1Comment ;; ret (WI k v c).
Fixpoint WithComponents (fuel : nat) : parser wcomps :=
  match fuel with
  | O => fun _ _ => None
  | S f =>
      lit "(WITH COMPONENTS {" ;;
      c <- opt Asn1Comment ;;
      l <- many (ComponentsItemNotLast (WithComponents f)) ;;
      i <- ComponentsItemLast (WithComponents f) ;;
      lit "})" ;;
      ret (WC c (l ++ [i])%list)
  end.

(** grammar.py 64-86.  Nesting costs characters, so that the length of the
    text bounds the recursion. *)
Definition typ : parser asn_type := fun ws s => Asn1Type (String.length s) ws s.
Definition clause : parser wcomps := fun ws s => WithComponents (String.length s) ws s.
Definition KeyTypePairNotLast : parser member :=
  orelse (k <- NameLower ;; t <- typ ;; lit "," ;; c <- opt Asn1Comment ;;
          ret (mkmember k t c None))
         (k <- NameLower ;; t <- typ ;; c <- opt Asn1Comment ;; w <- clause ;;
          lit "," ;; ret (mkmember k t c (Some w))).
Definition KeyTypePairLast : parser member :=
  k <- NameLower ;; t <- typ ;; c <- opt Asn1Comment ;; w <- opt clause ;;
  ret (mkmember k t c w).

(** grammar.py 39-44, 115-131 *)
Definition Choice : parser definition :=
  n <- NameCapital ;; lit "::= CHOICE {" ;; c <- opt Asn1Comment ;;
  l <- many KeyTypePairNotLast ;; x <- KeyTypePairLast ;; lit "}" ;;
  ret (DChoice n c (l ++ [x])%list).
Definition Enumerated : parser definition :=
  n <- NameCapital ;; lit "::= ENUMERATED {" ;; c <- opt Asn1Comment ;;
  l <- many EnumeratedItemNotLast ;; x <- EnumeratedItemLast ;; lit "}" ;;
  ret (DEnumerated n c (l ++ [x])%list).
Definition Sequence : parser definition :=
  n <- NameCapital ;; lit "::= SEQUENCE {" ;; c <- opt Asn1Comment ;;
  l <- many KeyTypePairNotLast ;; x <- KeyTypePairLast ;; lit "}" ;;
  ret (DSequence n c (l ++ [x])%list).
Definition SimpleDefinition : parser definition :=
  n <- NameCapital ;; lit "::=" ;; t <- typ ;; c <- opt Asn1Comment ;;
  ret (DSimple n t c).

(** grammar.py 35-37 *)
Definition Definitions : parser definition :=
  orelse Choice (orelse Enumerated (orelse Sequence SimpleDefinition)).

(** grammar.py 10-14; [+=X[',']]: one or more, separated by commas. *)
Definition ImportItem : parser import_item :=
  n <- NameCapital ;; ns <- many (lit "," ;; NameCapital) ;;
  lit "FROM Module-" ;; m <- NameLower ;; c <- opt Asn1Comment ;;
  ret (mkimport (n :: ns) m c).

(** grammar.py 2-8 *)
Definition imports : parser (list import_item * option comment) :=
  lit "IMPORTS" ;; i <- ImportItem ;; is <- many ImportItem ;; lit ";" ;;
  c <- opt Asn1Comment ;; ret (i :: is, c).
Definition Asn1Module : parser module :=
  lit "Module-" ;; n <- NameLower ;;
  lit "DEFINITIONS AUTOMATIC TAGS ::= BEGIN" ;; c <- opt Asn1Comment ;;
  i <- opt imports ;;
  d <- Definitions ;; ds <- many Definitions ;;
  lit "END" ;;
  ret (match i with
       | Some (l, ci) => mkmodule n c l ci (d :: ds)
       | None => mkmodule n c [] None (d :: ds)
       end).

(** parser.py 102 ([model_from_str]) up to the object processors: [None] is
    textX's syntax error. *)
Definition end_of_input : parser unit :=
  token (fun s => match s with EmptyString => Some (tt, s) | _ => None end).
Definition read_module (text : string) : option module :=
  match (m <- Asn1Module ;; end_of_input ;; ret m) true text with
  | Some (m, _) => Some m
  | None => None
  end.
