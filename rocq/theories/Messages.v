(** * The messages of the checks: asn1/processor.py, asn1/asn1_bundle_builder.py,
      asn1/validation/asn1_bundle_validator.py, and what main.py prints

    The checks of Processor.v and Bundle.v once more, now with the texts of
    their exceptions.  C90 proves that the outcomes are the same. *)
From Verif Require Import Base PyNum PyStr Ast Size Grammar Processor Bundle CCommon GenCfs Main Source Cli Tree.
Open Scope string_scope.

(** Outcome of a check.  [None]: an exception with a text of textX or of
    Python itself, which is not modelled. *)
Inductive said (A : Type) : Type :=
| Good (a : A)
| Bad (e : error) (text : option string).
Arguments Good {A} a.
Arguments Bad {A} e text.

(** The outcome without the text. *)
Definition forget {A} (r : said A) : result A :=
  match r with Good a => Ok a | Bad e _ => Err e end.

Definition then_ {A B} (r : said A) (f : A -> said B) : said B :=
  match r with Good a => f a | Bad e t => Bad e t end.
Notation "'let&' x := r 'in' k" := (then_ r (fun x => k))
  (at level 200, x pattern, r at level 100, k at level 200).
Definition demand (b : bool) (e : error) (text : string) : said unit :=
  if b then Good tt else Bad e (Some text).
Fixpoint each {A} (f : A -> said unit) (l : list A) : said unit :=
  match l with
  | [] => Good tt
  | x :: r => let& _ := f x in each f r
  end.
Fixpoint map_said {A B} (f : A -> said B) (l : list A) : said (list B) :=
  match l with
  | [] => Good []
  | x :: r => let& y := f x in let& ys := map_said f r in Good (y :: ys)
  end.

(** [f"{x}"] of a bound: [None], an int or a float. *)
Definition bound_text (n : option num) : string :=
  match n with
  | None => "None"
  | Some (NInt z) => str_of_Z z
  | Some (NFloat f) => frepr f
  end.
(** [f"{s}"] of a set of names iterated in the order [l].  Names contain
    neither quotes nor backslashes, so [repr] only adds quotes. *)
Definition set_text (l : list string) : string :=
  "{" ++ join ", " (map (fun n => "'" ++ n ++ "'") l) ++ "}".

(** ** processor.py *)

(** 167-214; the mapping to a [TypeEnum] has one more error, 205 *)
Definition asn1_type_said (t : asn_type) : said (option ctype) :=
  let b := type_begin t in
  let e := type_end t in
  let& _ :=
    match b, e with
    | Some x, Some y =>
        demand (negb (num_lt y x)) ValueErr ("end: " ++ bound_text e ++ " is less then begin: " ++ bound_text b)
    | _, _ => Good tt
    end in
  match asn1_type t with
  | Ok c => Good c
  | Err x => Bad x (Some (bound_text b ++ " or " ++ bound_text e ++ " are out of double range"))
  | OutOfFuel => Good None                              (* does not occur *)
  end.
Fixpoint process_type_said (t : asn_type) : said unit :=
  let& _ := match t with TArray _ e => process_type_said e | _ => Good tt end in
  let& _ := asn1_type_said t in Good tt.

(** 256-268; [key]: the key of the parent, if it has one *)
Definition check_comment_said (key : option string) (c : comment) : said unit :=
  if String.eqb (cm_text c) "" then Good tt
  else
    let bad sign :=
      match key with
      | Some k => Bad TextXSyntaxError
                    (Some ("Comment for '" ++ k ++ "' contains an invalid sign '" ++ sign ++ "': '" ++ cm_text c ++ "'"))
      | None => Bad AttributeErr None
      end in
    if contains "[" (cm_text c) then bad "["
    else if contains "]" (cm_text c) then bad "]"
    else if contains "--" (cm_text c) then bad "--"
    else Good tt.
Definition comment_said (key : option string) (c : option comment) : said unit :=
  match c with Some c => check_comment_said key c | None => Good tt end.

Fixpoint process_wval_said (v : wval) : said unit :=
  match v with
  | VWith w => process_wcomps_said w
  | _ => Good tt
  end
with process_wcomps_said (w : wcomps) : said unit :=
  match w with
  | WC c l =>
      let& _ := comment_said None c in
      (fix go (l : list witem) : said unit :=
         match l with
         | [] => Good tt
         | i :: r => let& _ := process_witem_said i in go r
         end) l
  end
with process_witem_said (i : witem) : said unit :=
  match i with
  | WI k v c =>
      let& _ := process_wval_said v in
      comment_said (Some k) c
  end.

(** 237-250; the parts of the text are not separated by blanks *)
Definition NULL_TEXT : string :=
  "Unexpected type: NULL. The NULL type is supported by" ++ "the ASN.1 standard but its use is forbidden by the"
  ++ "APG tool to avoid any confusion that could be caused" ++ "by the presence of the NULL type in the generated C"
  ++ "and COSMOS artifacts.".
Definition null_check_said (t : asn_type) : said unit :=
  demand (negb (String.eqb (type_name t) "NULL")) ConsistencyError NULL_TEXT.

(** 217-234 *)
Definition check_posix_said (name : string) (t : asn_type) : said unit :=
  let text := "Range [" ++ bound_text (type_begin t) ++ " - " ++ bound_text (type_end t)
              ++ "] doesn't match with the used POSIX definition (" ++ name ++ ")." in
  match posix_range name with
  | None => Good tt
  | Some (pb, pe) =>
      match type_begin t, type_end t with
      | Some b, Some e => demand (num_eq pb b && num_eq pe e) ConsistencyError text
      | _, _ => Bad ConsistencyError (Some text)
      end
  end.

Definition process_member_said (m : member) : said unit :=
  let& _ := process_type_said (m_type m) in
  let& _ := comment_said (Some (m_key m)) (m_comment m) in
  let& _ := match m_with m with Some w => process_wcomps_said w | None => Good tt end in
  null_check_said (m_type m).

(** 271-293 *)
Fixpoint place_said (l : list enum_item) (slots : list (option enum_item)) : said (list (option enum_item)) :=
  match l with
  | [] => Good slots
  | e :: r =>
      let n := Z.of_nat (List.length slots) in
      let p := e_pos e in
      let i := if (p <? 0)%Z then (n + p)%Z else p in
      if ((0 <=? i) && (i <? n))%Z then
        match nth_error slots (Z.to_nat i) with
        | Some None => place_said r (list_set (Z.to_nat i) (Some e) slots)
        | _ => Bad IndexErr (Some ("index '" ++ str_of_Z p ++ "' is defined multiple times"))
        end
      else Bad IndexErr None
  end.
Definition check_enumerated_said (l : list enum_item) : said (list enum_item) :=
  let pos_sum := zsum (map e_pos l) in
  if (pos_sum =? 0)%Z then Good (renumber 0 l)
  else if negb (pos_sum =? sum_range (List.length l))%Z
  then Bad IndexErr (Some "Some indices are not present, multiple times or out of bounds")
  else
    let& slots := place_said l (repeat None (List.length l)) in
    map_said (fun o => match o with Some e => Good e | None => Bad AttributeErr None end) slots.

Definition process_definition_said (d : definition) : said definition :=
  match d with
  | DSequence _ c l | DChoice _ c l =>
      let& _ := comment_said None c in
      let& _ := each process_member_said l in
      Good d
  | DEnumerated n c l =>
      let& _ := comment_said None c in
      let& _ := each (fun e => comment_said (Some (e_key e)) (e_comment e)) l in
      let& l' := check_enumerated_said l in
      Good (DEnumerated n c l')
  | DSimple n t c =>
      let& _ := process_type_said t in
      let& _ := comment_said None c in
      let& _ := null_check_said t in
      let& _ := check_posix_said n t in
      Good d
  end.

(** 58-81 *)
Definition check_used_types_said (m : module) : said unit :=
  each
    (fun d => each
       (fun k => let n := type_name (m_type k) in
          demand (mem n (defined_types m)) ConsistencyError
            ("Type '" ++ n ++ "' used in '" ++ mod_name m ++ "' is not defined"))
       (def_children d))
    (mod_defs m).

(** parser.py 92-105 *)
Definition parse_module_said (m : module) : said module :=
  let& _ := comment_said None (mod_comment m) in
  let& _ := each (fun i => comment_said None (imp_comment i)) (mod_imports m) in
  let& _ := comment_said None (mod_comment_import m) in
  let& defs := map_said process_definition_said (mod_defs m) in
  let m' := mkmodule (mod_name m) (mod_comment m) (mod_imports m) (mod_comment_import m) defs in
  let& _ := check_used_types_said m' in
  Good m'.

(** 102-150; [d]: the definition with the clause *)
Fixpoint check_wcomps_said (seqs : list definition) (d : string) (type_n : string) (w : wcomps) : said unit :=
  match w with
  | WC _ l =>
      match sequences_named seqs type_n with
      | [s] =>
          (fix go (l : list witem) : said unit :=
             match l with
             | [] => Good tt
             | WI k v _ :: r =>
                 let& _ := demand (mem k (map m_key (seq_children s))) ConsistencyError
                             ("'" ++ k ++ "' in '" ++ d ++ "' is not a valid key") in
                 let& _ :=
                   match v with
                   | VWith w' =>
                       match find (fun m => String.eqb (m_key m) k) (seq_children s) with
                       | Some m => check_wcomps_said seqs d (type_name (m_type m)) w'
                       | None => Bad IndexErr None
                       end
                   | _ => Good tt
                   end in
                 go r
             end) l
      | _ =>
          demand (mem type_n PREDEFINED_LIST) ConsistencyError
            ("used type '" ++ type_n ++ "' in '" ++ d ++ "' is not defined")
      end
  end.
(** 84-99 *)
Definition check_components_said (defs : list definition) : said unit :=
  let seqs := filter is_sequence defs in
  each
    (fun d => each
       (fun k => match m_with k with
                 | Some w => check_wcomps_said seqs (def_name d) (type_name (m_type k)) w
                 | None => Good tt
                 end)
       (seq_children d))
    defs.

(** ** Bundles

    [order l]: the elements of the set of names in list [l], in the order in
    which Python iterates over it (which is not the same in every run). *)
Section Order.
Variable order : list string -> list string.

(** asn1_bundle_builder.py 163-218 *)
Definition twice_text (l : list string) (place : string) : string :=
  match l with
  | [n] => "The module " ++ n ++ " is found multiple times in the " ++ place
  | _ => "The modules " ++ join ", " l ++ " are found multiple times in the " ++ place
  end.
Definition unique_names_said (ms : list module) (asn1_modules : list string) : said unit :=
  match order (duplicates asn1_modules), order (duplicates (map mod_name ms)) with
  | [], [] => Good tt
  | [], l => Bad ConsistencyError (Some (twice_text l "bundle"))
  | l, _ => Bad ConsistencyError (Some (twice_text l "--asn1-modules command-line argument"))
  end.

(** asn1_bundle_builder.py 125-140 *)
Definition check_dependencies_said (ms : list module) : said unit :=
  let names := map mod_name ms in
  each
    (fun n =>
       match last_index n ms with
       | None => Good tt
       | Some i =>
           match nth_error ms i with
           | None => Good tt
           | Some m =>
               let missing := set_diff (dependencies m) names in
               demand (is_nil missing) SyntaxErr
                 ("Module '" ++ n ++ "' uses undeclared dependencies " ++ set_text (order missing))
           end
       end)
    (dedup names).
Definition build_said (ms : list module) : said bundle :=
  let uses := fold_left module_uses ms [] in
  let& _ := check_dependencies_said ms in
  Good (mkbundle (attach_imports ms 0 ms) uses).

(** asn1_bundle_validator.py 39-63 *)
Definition check_imports_said (b : bundle) : said unit :=
  each
    (fun bm =>
       each
         (fun i =>
            match nth_error (b_modules b) i with
            | None => Good tt
            | Some im =>
                let defs := map def_name (mod_defs (bm_mod im)) in
                let types :=
                  flatten (map imp_names
                    (filter (fun it => String.eqb (imp_module it) (bm_name im))
                            (mod_imports (bm_mod bm)))) in
                let undefined := set_diff types defs in
                demand (is_nil undefined) ConsistencyError
                  ("Error parsing '" ++ bm_name bm ++ "': Imports " ++ set_text (order undefined)
                   ++ " From '" ++ bm_name im ++ "' not found.")
            end)
         (bm_imported bm))
    (b_modules b).

(** asn1_bundle_validator.py 76-102; [seen]: type names and the modules that
    define them, [l]: the definitions with their modules *)
Fixpoint check_duplicates_said (seen l : list (string * string)) : said unit :=
  match l with
  | [] => Good tt
  | (n, m) :: r =>
      match dict_get n seen with
      | Some m0 =>
          Bad ConsistencyError
            (Some ("The type " ++ n ++ " was already defined in "
                   ++ (if String.eqb m0 m then m0 else m0 ++ " and " ++ m)))
      | None => check_duplicates_said ((n, m) :: seen) r
      end
  end.
Definition located (ms : list module) : list (string * string) :=
  flat_map (fun m => map (fun d => (def_name d, mod_name m)) (mod_defs m)) ms.
Definition validate_bundle_said (b : bundle) : said unit :=
  let& _ := check_imports_said b in
  let& _ := check_components_said (all_defs b) in
  check_duplicates_said [] (located (all_modules b)).

(** asn1_bundle_validator.py 105-156 *)
Definition missing_text (l : list string) (here there : string) : string :=
  let modules := match l with [_] => "Module" | _ => "Modules" end in
  let were := match l with [_] => "was" | _ => "were" end in
  modules ++ " " ++ join ", " l ++ " " ++ were ++ " found in " ++ here ++ ", but " ++ were ++ " not found in " ++ there ++ ".".
Definition check_missing_said (asn1_modules : list string) (b : bundle) : said unit :=
  let bad text :=
    Bad ConsistencyError
      (Some (text ++ " " ++ NL ++ NL ++ "Modules found in command-line argument: " ++ join ", " (sort_names asn1_modules)
             ++ NL ++ NL ++ "Modules found in bundle               : " ++ join ", " (sort_names (module_names b)))) in
  match order (set_diff asn1_modules (module_names b)), order (set_diff (module_names b) asn1_modules) with
  | [], [] => Good tt
  | [], l => bad (missing_text l "bundle" "the --asn1-modules command-line argument")
  | l, _ => bad (missing_text l "the --asn1-modules command-line argument" "the bundle")
  end.

(** asn1_bundle_builder.py 49-59, from the texts of the files on *)
Definition parse_text_said (text : string) : said module :=
  match read_module text with
  | Some m => parse_module_said m
  | None => Bad TextXSyntaxError None
  end.
Definition bundle_said (asn1_modules : list string) (ms : list module) : said bundle :=
  let& _ := unique_names_said ms asn1_modules in
  let& b := build_said ms in
  let& _ := validate_bundle_said b in
  let& _ := check_missing_said asn1_modules b in
  Good b.
Definition config_said (asn1_modules : list string) (texts : list string) : said bundle :=
  let& ms := map_said parse_text_said texts in
  bundle_said asn1_modules ms.

(** main.py 45-81: what the program prints.  The other commands and the
    generators print nothing; what argparse and the interpreter write is not
    modelled. *)
Definition printed (cwd : place_t) (words : list string) (t : node) : string :=
  match parse_args words with
  | None => ""
  | Some (a, _) =>
      match read_inputs t cwd (input_paths a) with
      | inr _ => ""
      | inl texts =>
          match command_of a with
          | GenerateCosmos _ _ _ => ""
          | GenerateCfs names | GenerateC names | GenerateBinary names _ =>
              match config_said names texts with
              | Bad ConsistencyError (Some text) =>
                  "error: an issue occurred when validating the ASN.1 bundle: " ++ text ++ "." ++ NL
              | _ => ""
              end
          end
      end
  end.

(** asn1_bundle_builder.py 61-72: cosmos *)
Definition cosmos_said (texts : list string) : said bundle :=
  let& ms := map_said parse_text_said texts in
  let& b := build_said ms in
  let& _ := validate_bundle_said b in
  Good b.

(** main.py 36-83: the exception that reading the input ends with, unless
    main.py catches it, and the message it was created with.  textX may add a
    position to the message of a TextXSyntaxError when it is shown. *)
Definition raised (cwd : place_t) (words : list string) (t : node) : option (error * string) :=
  match parse_args words with
  | None => None
  | Some (a, _) =>
      match read_inputs t cwd (input_paths a) with
      | inr _ => None
      | inl texts =>
          match
            match command_of a with
            | GenerateCosmos _ _ _ => cosmos_said texts
            | GenerateCfs names | GenerateC names | GenerateBinary names _ => config_said names texts
            end
          with
          | Bad e (Some text) =>
              match rejection (command_of a) e with
              | Raised e => Some (e, text)
              | _ => None
              end
          | _ => None
          end
      end
  end.
End Order.
