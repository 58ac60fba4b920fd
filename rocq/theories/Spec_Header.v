(** * Specification: reading a generated C header *)
From Verif Require Import Base PyNum PyStr Ast CCommon Main Spec_Check Spec_Num Spec_Enum Spec_Size Spec_Text Spec_C.
Open Scope string_scope.

(** ** Tokens

    Words (identifiers, keywords, numbers), strings, ends of lines and
    single characters.  Comments are dropped as in C: a line comment ends
    with the line unless its last character is a backslash, a block comment
    ends at the next "*/". *)
Inductive token : Set :=
| Word (w : string) | Quoted (s : string) | Punct (c : ascii) | EndOfLine.

Inductive mode : Set :=
| Code | InWord (w : string) | Slash | LineComment (backslash : bool) | BlockComment (star : bool)
| InQuotes (s : string).

Definition word_char (c : ascii) : bool :=
  is_lower c || is_upper c || is_digit c || Ascii.eqb c "_".

Definition code_step (c : ascii) : list token * mode :=
  if word_char c then ([], InWord (String c ""))
  else if Ascii.eqb c " " then ([], Code)
  else if Ascii.eqb c LF then ([EndOfLine], Code)
  else if Ascii.eqb c "/" then ([], Slash)
  else if Ascii.eqb c DQ then ([], InQuotes "")
  else ([Punct c], Code).

Definition token_step (m : mode) (c : ascii) : list token * mode :=
  match m with
  | Code => code_step c
  | InWord w =>
      if word_char c then ([], InWord (w ++ String c ""))
      else (Word w :: fst (code_step c), snd (code_step c))
  | Slash =>
      if Ascii.eqb c "/" then ([], LineComment false)
      else if Ascii.eqb c "*" then ([], BlockComment false)
      else (Punct "/" :: fst (code_step c), snd (code_step c))
  | LineComment b =>
      if Ascii.eqb c LF then if b then ([], LineComment false) else ([EndOfLine], Code)
      else ([], LineComment (Ascii.eqb c "\"))
  | BlockComment star =>
      if star && Ascii.eqb c "/" then ([], Code) else ([], BlockComment (Ascii.eqb c "*"))
  | InQuotes s => if Ascii.eqb c DQ then ([Quoted s], Code) else ([], InQuotes (s ++ String c ""))
  end.

(** None: the text ends within a comment or a string. *)
Fixpoint tokens (m : mode) (s : string) : option (list token) :=
  match s with
  | "" => match m with
          | Code | LineComment _ => Some []
          | InWord w => Some [Word w]
          | Slash => Some [Punct "/"]
          | BlockComment _ | InQuotes _ => None
          end
  | String c r => option_map (app (fst (token_step m c))) (tokens (snd (token_step m c)) r)
  end.

(** ** Lines and directives *)
Fixpoint token_lines (cur : list token) (l : list token) : list (list token) :=
  match l with
  | [] => [cur]
  | EndOfLine :: r => cur :: token_lines [] r
  | t :: r => token_lines (cur ++ [t]) r
  end.

Inductive include : Set := System (name : string) | Local (file : string).

Definition directive (l : list token) : option include :=
  match l with
  | [Punct "#"; Word "include"; Punct "<"; Word n; Punct "."; Word "h"; Punct ">"] => Some (System n)
  | [Punct "#"; Word "include"; Quoted f] => Some (Local f)
  | _ => None
  end.

(** What stands between the guards: includes, and the rest of the tokens. *)
Fixpoint body_lines (ls : list (list token)) : option (list include * list token) :=
  match ls with
  | [] => Some ([], [])
  | l :: r =>
      match body_lines r with
      | Some (is, ts) =>
          match l with
          | Punct "#" :: _ => match directive l with Some i => Some (i :: is, ts) | None => None end
          | _ => Some (is, (l ++ ts)%list)
          end
      | None => None
      end
  end.

(** ** Declarations *)
Record xfield : Set := mkxfield
  { x_type : list string; x_name : string; x_bits : option Z; x_array : option Z }.
Inductive xdecl : Set :=
| XStruct (packed : bool) (name : string) (fields : list xfield)   (* typedef struct *)
| XEnum (packed : bool) (name : string) (items : list (string * Z)) (* typedef enum *)
| XUnion (name : string) (fields : list xfield) (var : string)
| XVar (type name : string).

(** The pieces between the characters [ch]; None unless the last is empty. *)
Fixpoint pieces (ch : ascii) (cur : list token) (l : list token) : option (list (list token)) :=
  match l with
  | [] => match cur with [] => Some [] | _ => None end
  | Punct c :: r =>
      if Ascii.eqb c ch then option_map (cons cur) (pieces ch [] r) else pieces ch (cur ++ [Punct c]) r
  | t :: r => pieces ch (cur ++ [t]) r
  end.

(** Up to the first character [ch], and what follows it. *)
Fixpoint up_to (ch : ascii) (l : list token) : option (list token * list token) :=
  match l with
  | [] => None
  | t :: r =>
      if match t with Punct c => Ascii.eqb c ch | _ => false end then Some ([], r)
      else match up_to ch r with Some (a, b) => Some (t :: a, b) | None => None end
  end.

(** An integer constant. *)
Definition constant (l : list token) : option (Z * list token) :=
  match l with
  | Word w :: r => match read_unsigned 10 w with Some z => Some (z, r) | None => None end
  | Punct "-" :: Word w :: r =>
      match read_unsigned 10 w with Some z => Some ((- z)%Z, r) | None => None end
  | _ => None
  end.

Fixpoint leading_words (l : list token) : list string * list token :=
  match l with
  | Word w :: r => let '(ws, r') := leading_words r in (w :: ws, r')
  | _ => ([], l)
  end.

(** Type, name, width, length. *)
Definition field_width (l : list token) : option (option Z * list token) :=
  match l with
  | Punct ":" :: r => match constant r with Some (z, r) => Some (Some z, r) | None => None end
  | _ => Some (None, l)
  end.
Definition field_length (l : list token) : option (option Z) :=
  match l with
  | [] => Some None
  | Punct "[" :: r => match constant r with Some (z, [Punct "]"]) => Some (Some z) | _ => None end
  | _ => None
  end.
Definition read_field (l : list token) : option xfield :=
  let '(ws, r) := leading_words l in
  match rev ws with
  | name :: t :: ts =>
      match field_width r with
      | Some (bits, r) =>
          match field_length r with
          | Some len => Some (mkxfield (rev (t :: ts)) name bits len)
          | None => None
          end
      | None => None
      end
  | _ => None
  end.
Definition read_enumerator (l : list token) : option (string * Z) :=
  match l with
  | Word k :: Punct "=" :: r => match constant r with Some (z, []) => Some (k, z) | _ => None end
  | _ => None
  end.

Fixpoint read_all {A B} (f : A -> option B) (l : list A) : option (list B) :=
  match l with
  | [] => Some []
  | x :: r => match f x, read_all f r with Some y, Some ys => Some (y :: ys) | _, _ => None end
  end.

(** The name of a typedef, and whether it is packed. *)
Definition typedef_name (l : list token) : option (bool * string) :=
  match l with
  | [Word n] => Some (false, n)
  | [Word "__attribute__"; Punct "("; Punct "("; Word "packed"; Punct ")"; Punct ")"; Word n] => Some (true, n)
  | _ => None
  end.

Definition read_declaration (l : list token) : option xdecl :=
  match l with
  | Word "typedef" :: Word "struct" :: Punct "{" :: r =>
      match up_to "}" r with
      | Some (body, after) =>
          match pieces ";" [] body with
          | Some ps =>
              match read_all read_field ps, typedef_name after with
              | Some fs, Some (packed, n) => Some (XStruct packed n fs)
              | _, _ => None
              end
          | None => None
          end
      | None => None
      end
  | Word "typedef" :: Word "enum" :: Punct "{" :: r =>
      match up_to "}" r with
      | Some (body, after) =>
          match pieces "," [] body with
          | Some ps =>
              match read_all read_enumerator ps, typedef_name after with
              | Some es, Some (packed, n) => Some (XEnum packed n es)
              | _, _ => None
              end
          | None => None
          end
      | None => None
      end
  | Word "union" :: Word n :: Punct "{" :: r =>
      match up_to "}" r with
      | Some (body, [Word v]) =>
          match pieces ";" [] body with
          | Some ps => match read_all read_field ps with Some fs => Some (XUnion n fs v) | None => None end
          | None => None
          end
      | _ => None
      end
  | [Word t; Word v] => Some (XVar t v)
  | _ => None
  end.

(** Declarations end with a semicolon outside of braces. *)
Fixpoint statements (depth : nat) (cur : list token) (l : list token) : option (list (list token)) :=
  match l with
  | [] => match depth, cur with O, [] => Some [] | _, _ => None end
  | Punct c :: r =>
      if Ascii.eqb c ";" && Nat.eqb depth 0 then option_map (cons cur) (statements 0 [] r)
      else if Ascii.eqb c "{" then statements (S depth) (cur ++ [Punct c]) r
      else if Ascii.eqb c "}" then
        match depth with O => None | S d => statements d (cur ++ [Punct c]) r end
      else statements depth (cur ++ [Punct c]) r
  | t :: r => statements depth (cur ++ [t]) r
  end.

(** ** Headers *)
Record header : Set := mkheader
  { h_guard : string; h_includes : list include; h_decls : list xdecl }.

Definition not_empty (l : list token) : bool := match l with [] => false | _ => true end.

(** The whole text stands between an include guard. *)
Definition read_header (s : string) : option header :=
  match tokens Code s with
  | None => None
  | Some ts =>
      match filter not_empty (token_lines [] ts) with
      | [Punct "#"; Word "ifndef"; Word g] :: [Punct "#"; Word "define"; Word g'] :: ls =>
          if String.eqb g g' then
            match rev ls with
            | [Punct "#"; Word "endif"] :: body =>
                match body_lines (rev body) with
                | Some (is, code) =>
                    match statements 0 [] code with
                    | Some ss => match read_all read_declaration ss with
                                 | Some ds => Some (mkheader g is ds)
                                 | None => None
                                 end
                    | None => None
                    end
                | None => None
                end
            | _ => None
            end
          else None
      | _ => None
      end
  end.

(** ** Comments that do no harm *)

(** A block comment must not end early. *)
Definition no_end_mark (s : string) : Prop := forall a b, s <> a ++ "*/" ++ b.
(** A line comment must not continue on the next line: its last character
    other than a space is no backslash. *)
Definition no_last_backslash (s : string) : Prop := forall a n, s <> a ++ "\" ++ repeat_str n " ".

Definition opt_quiet (P : string -> Prop) (c : option comment) : Prop :=
  match c with Some c => P (cm_text c) | None => True end.
Definition quiet_definition (d : definition) : Prop :=
  match d with
  | DSequence _ c l => opt_quiet no_end_mark c /\ Forall (fun m => opt_quiet no_last_backslash (m_comment m)) l
  | DEnumerated _ c l => opt_quiet no_end_mark c /\ Forall (fun e => opt_quiet no_last_backslash (e_comment e)) l
  | DChoice _ c l => opt_quiet no_end_mark c /\ Forall (fun m => m_comment m = None) l
  | DSimple _ _ _ => True
  end.
Definition quiet (m : module) : Prop :=
  opt_quiet no_end_mark (mod_comment m) /\ opt_quiet no_last_backslash (mod_comment_import m)
  /\ Forall quiet_definition (mod_defs m).

(** ** What is declared, without comments *)
Definition field_said (f : cfield) : xfield :=
  mkxfield (split_on " " (cf_type f)) (cf_name f) (cf_bits f) (cf_array f).
Definition said (d : cdecl) : xdecl :=
  match d with
  | CStruct _ n fs => XStruct true n (map field_said fs)
  | CEnum _ n items => XEnum true n (map fst items)
  | CUnion _ n v items => XUnion n (map (fun x => mkxfield [fst (fst x)] (snd (fst x)) None None) items) v
  end.

(** The header of a module. *)
Definition header_name (c : command) (m : string) : string :=
  match c with GenerateCfs _ => c_name m ++ "_msg.h" | _ => c_name m ++ ".h" end.

(** Its include guard, and the file an import becomes an include of. *)
Definition header_guard (c : command) (m : string) : string :=
  "ASN1_PARSER_" ++ upper (c_name m) ++ (match c with GenerateCfs _ => "_MSG_H" | _ => "_H" end) ++ "_INCLUDED".
Definition included_file (c : command) (m : string) : string :=
  match c with GenerateCfs _ => c_name m ++ "_msg.h" | _ => c_name m end.

(** ** What a header declares for given definitions

    [ds] are the definitions of all modules. *)

(** Names of simple types that stand for a type of <stdint.h>. *)
Definition POSIX_NAMES : list (string * string) :=
  [("Int8-t", "int8_t"); ("Int16-t", "int16_t"); ("Int32-t", "int32_t"); ("Int64-t", "int64_t");
   ("Uint8-t", "uint8_t"); ("Uint16-t", "uint16_t"); ("Uint32-t", "uint32_t"); ("Uint64-t", "uint64_t")].

(** Type and bit-field width for a range, and for other simple types. *)
Inductive number_said : asn_type -> list string -> option Z -> Prop :=
| said_unsigned : forall lo hi w n ct bits,
    (0 <= lo)%Z -> least_width w hi -> (1 <= w <= 64)%Z ->
    smallest [8; 16; 32; 64]%Z (fun n => holds_unsigned n lo hi) n -> In (n, ct) UINT_TYPES ->
    bits = (if in_dec Z.eq_dec w [8; 16; 32; 64]%Z then None else Some w) ->
    number_said (TInteger (Some (lo, hi))) [ct] bits
| said_wide : forall lo hi w,
    (0 <= lo)%Z -> least_width w hi -> (64 < w)%Z ->
    number_said (TInteger (Some (lo, hi))) ["unsigned"; "long"; "long"] (Some w)
| said_signed : forall lo hi, (lo < 0)%Z -> number_said (TInteger (Some (lo, hi))) ["int"] None
| said_single : forall b e, abs_at_most (fval b) float_bound -> abs_at_most (fval e) float_bound ->
    number_said (TReal (Some (b, e))) ["float"] None
| said_double : forall b e, ~ (abs_at_most (fval b) float_bound /\ abs_at_most (fval e) float_bound) ->
    number_said (TReal (Some (b, e))) ["double"] None
| said_bool : forall t, element t = TBoolean -> number_said t ["bool"] None
| said_string : forall k n, number_said (TString k n) ["string"] None
| said_float_name : forall t, element t = TName "Float" -> number_said t ["float"] None
| said_double_name : forall t, element t = TName "Double" -> number_said t ["double"] None.

(** The bit-field width of a member of type [t], or an array, whose type is
    defined by [d] and is no simple type. *)
Definition width_said (d : definition) (t : asn_type) (bits : option Z) : Prop :=
  match d, t with
  | DEnumerated _ _ l, TName _ => exists w, bits = Some w /\ least_width w (Z.of_nat (length l) - 1)
  | _, _ => bits = None
  end.

(** Type and bit-field width of a member of type [t]. *)
Inductive type_said (ds : list definition) (t : asn_type) : list string -> option Z -> Prop :=
| of_boolean : element t = TBoolean -> type_said ds t ["uint8_t"] (Some 1%Z)
| of_string : forall k n, element t = TString k n -> type_said ds t ["char"] None
| of_number : forall ct bits, (exists r, t = TInteger r) \/ (exists r, t = TReal r) ->
    number_said t ct bits -> type_said ds t ct bits
| of_simple : forall n t' c ct bits, element t = TName n -> In (DSimple n t' c) ds -> ~ In n (map fst POSIX_NAMES) ->
    number_said t' ct bits -> type_said ds t ct bits
| of_posix : forall n t' c ct, element t = TName n -> In (DSimple n t' c) ds -> In (n, ct) POSIX_NAMES ->
    type_said ds t [ct] None
| of_sequence : forall n c l, element t = TName n -> In (DSequence n c l) ds -> ~ In n (map fst POSIX_NAMES) ->
    type_said ds t [c_name n] None
| of_choice : forall n c l, element t = TName n -> In (DChoice n c l) ds -> ~ In n (map fst POSIX_NAMES) ->
    type_said ds t [c_name n] None
| of_enumerated : forall n c l w, t = TName n -> In (DEnumerated n c l) ds -> ~ In n (map fst POSIX_NAMES) ->
    least_width w (Z.of_nat (length l) - 1) -> type_said ds t [c_name n] (Some w)
| of_enumerated_array : forall n c l m e, t = TArray m e -> element e = TName n -> In (DEnumerated n c l) ds ->
    ~ In n (map fst POSIX_NAMES) -> type_said ds t [c_name n] None
| of_posix_other : forall n d ct bits, element t = TName n -> In d ds -> def_name d = n -> is_simple d = false ->
    In (n, ct) POSIX_NAMES -> width_said d t bits -> type_said ds t [ct] bits.

Definition member_said (ds : list definition) (k : member) (f : xfield) : Prop :=
  x_name f = c_name (m_key k)
  /\ x_array f = match m_type k with TArray n _ | TString _ n => Some n | _ => None end
  /\ type_said ds (m_type k) (x_type f) (x_bits f).

(** The declarations of one definition; the enumerators are numbered from 0
    in the order of the numbers given to them (Spec_Enum). *)
Inductive definition_said (ds : list definition) : definition -> list xdecl -> Prop :=
| sequence_said : forall n c l fs, Forall2 (member_said ds) l fs ->
    definition_said ds (DSequence n c l) [XStruct true (c_name n) fs]
| enumerated_said : forall n c l l', renumbered l l' ->
    definition_said ds (DEnumerated n c l) [XEnum true (c_name n) (map (fun e => (c_name (e_key e), number e)) l')]
| choice_said : forall n c l,
    definition_said ds (DChoice n c l)
      [XUnion (c_name n) (map (fun k => mkxfield [c_name (type_name (m_type k))] (c_name (m_key k)) None None) l)
         (lowerize (c_name n))]
| simple_said : forall n t c, definition_said ds (DSimple n t c) [].

(** For command c, one variable for each WITH COMPONENTS clause. *)
Definition variables_said (cmd : command) (order : list definition) : list xdecl :=
  match cmd with
  | GenerateC _ => map (fun x => XVar (c_name (fst (fst x))) (lowerize (c_name (fst (fst x))))) (flat_map def_clauses order)
  | _ => []
  end.

(** A struct has a field of a type of <stdint.h>. *)
Definition uses_stdint (x : xdecl) : Prop :=
  exists packed n fs f t, x = XStruct packed n fs /\ In f fs /\ x_type f = [t] /\ In t STDINT_TYPES.
