(** * From ASN.1 to C: generators/generator.py, c_data.py, c_printer.py

    C text is first built as data ([cfield], [cdecl], ...) and then rendered.
    The rendering of [cgen] objects (an external library) follows cgen's
    output format as recorded in the expected files of
    tests/integration/generators. *)
From Verif Require Import Base PyNum PyStr Ast Size Processor Bundle Sorter.
Open Scope string_scope.

(** c_printer.py 50-55 ([asn1_to_c_style_naming]) *)
Definition c_name (n : string) : string :=
  if mem n ["IA5String"; "NumericString"] then "char"
  else replace_char "-" "_" n.

(** generators/generator.py 24-28 ([_POSIX_DEFINED_TYPES]) *)
Definition POSIX_DEFINED_TYPES : list string :=
  ["int8_t"; "int16_t"; "int32_t"; "int64_t";
   "uint8_t"; "uint16_t"; "uint32_t"; "uint64_t"].

(** [c_type.value.lower()], size.py 26-32 *)
Definition ctype_lower (c : ctype) : string :=
  match c with
  | A_BOOL => "bool" | A_UINT => "uint" | A_INT => "int"
  | A_STRING => "string" | A_FLOAT => "float" | A_DOUBLE => "double"
  end.

(** generator.py 63-68: the least [n >= bit_size] whose [math.log(n, 2)] is an
    integer not below 3, i.e. the least power of two that is at least
    [max 8 bit_size].  (For exponents 29, 31, 39, ... Python's [math.log] is
    off by one ulp and the loop runs on to a larger power; only sizes up to 64
    are looked at afterwards.)  [math.log(0)] is a ValueError. *)
Definition next_bit_size (n : Z) : Z :=
  if (n <=? 8)%Z then 8%Z else (2 ^ Z.log2_up n)%Z.

(** What [_map_simple_types_to_c] returns: bit-field width (None: no
    bit-field), C type, stdbool needed, stdint needed. *)
Record cmap : Set := mkcmap
  { cm_bits : option Z; cm_ctype : string; cm_stdbool : bool; cm_stdint : bool }.

(** generator.py 45-79: the branch for INTEGER, REAL and simple definitions. *)
Definition map_direct (t : asn_type) : result cmap :=
  match get_c_type t with
  | None => Err NotImplementedErr                            (* 49-53 *)
  | Some c =>
      let* bit_size := get_bit_size c (type_begin t) (type_end t) in
      let bits :=                                            (* 60-61 *)
        match c with
        | A_UINT => if existsb (Z.eqb bit_size) [8; 16; 32; 64]%Z
                    then None else Some bit_size
        | _ => None
        end in
      let* _ := assert (negb (bit_size <=? 0)%Z) ValueErr in (* 65: log(0) *)
      let n := next_bit_size bit_size in
      match c with
      | A_UINT =>                                            (* 70-79 *)
          let cand := "uint" ++ str_of_Z n ++ "_t" in
          if mem cand POSIX_DEFINED_TYPES
          then Ok (mkcmap bits cand false true)
          else Ok (mkcmap bits "unsigned long long" false false)
      | _ => Ok (mkcmap bits (ctype_lower c) false false)
      end
  end.

(** generator.py 30-91 ([_map_simple_types_to_c]) on a sequence member;
    [fuel] is for [get_size_bits] on line 87. *)
Definition map_member (fuel : nat) (defs : list definition) (t : asn_type)
  : result cmap :=
  let v := c_name (type_name t) in
  if mem v ["INTEGER"; "REAL"] then map_direct t
  else if String.eqb v "BOOLEAN" then Ok (mkcmap (Some 1%Z) "uint8_t" false true)
  else match resolve defs t with
       | RDef (DEnumerated _ _ _) =>
           let* s := member_size fuel defs t in
           Ok (mkcmap (Some s) v false false)
       | _ => Ok (mkcmap None v false false)
       end.

(** One field of a generated struct. *)
Record cfield : Set := mkcfield
  { cf_comment : option string;      (* line comment printed before it *)
    cf_type : string;
    cf_name : string;
    cf_bits : option Z;              (* bit-field width *)
    cf_array : option Z }.           (* array length *)

Inductive cdecl : Set :=
| CStruct (cm : option string) (name : string) (fields : list cfield)
| CEnum (cm : option string) (name : string)
        (items : list (string * Z * option string))
| CUnion (cm : option string) (name var : string)
         (items : list (string * string * option string)).

(** Lines collected in the include list. *)
Inductive cinclude : Set :=
| IncComment (text : string)         (* // text *)
| IncFile (file : string)            (* #include "file" *)
| IncNote (text : string).           (* text as is *)

Record cdefine : Set := mkdefine
  { df_name : string; df_value : string; df_newline : bool }.

(** A byte string. *)
Definition bytes := list Z.

(** c_data.py 4-44 *)
Record cdata : Set := mkcdata
  { cd_data : list cdecl;
    cd_defines : list cdefine;
    cd_includes : list cinclude;
    cd_inits : list string;
    cd_predefs : list string;
    cd_init_include : string;
    cd_stdbool : bool;
    cd_stdint : bool;
    cd_header_comment : string;
    cd_binary : list (string * list bytes) }.

Definition empty_cdata : cdata :=
  mkcdata [] [] [] [] [] "" false false "" [].

(** [d[k] = v] on a Python dict: an existing key keeps its position. *)
Fixpoint dict_set {A} (k : string) (v : A) (d : list (string * A)) : list (string * A) :=
  match d with
  | [] => [(k, v)]
  | (k', v') :: r => if String.eqb k k' then (k, v) :: r else (k', v') :: dict_set k v r
  end.

(** c_data.py 76-87 ([extend_with_cdata]): lists are appended, flags or-ed,
    [init_include] is replaced, equal binary keys are overwritten. *)
Definition extend_with_cdata (a b : cdata) : cdata :=
  mkcdata (cd_data a ++ cd_data b)%list
          (cd_defines a ++ cd_defines b)%list
          (cd_includes a ++ cd_includes b)%list
          (cd_inits a ++ cd_inits b)%list
          (cd_predefs a ++ cd_predefs b)%list
          (cd_init_include b)
          (cd_stdbool a || cd_stdbool b)
          (cd_stdint a || cd_stdint b)
          (cd_header_comment a)
          (fold_left (fun d kv => dict_set (fst kv) (snd kv) d) (cd_binary b) (cd_binary a)).

Definition add_include (i : cinclude) (a : cdata) : cdata :=
  mkcdata (cd_data a) (cd_defines a) (cd_includes a ++ [i])%list (cd_inits a) (cd_predefs a)
          (cd_init_include a) (cd_stdbool a) (cd_stdint a) (cd_header_comment a) (cd_binary a).
Definition add_data (d : cdecl) (a : cdata) : cdata :=
  mkcdata (cd_data a ++ [d])%list (cd_defines a) (cd_includes a) (cd_inits a) (cd_predefs a)
          (cd_init_include a) (cd_stdbool a) (cd_stdint a) (cd_header_comment a) (cd_binary a).
Definition set_std (stdbool stdint : bool) (a : cdata) : cdata :=
  mkcdata (cd_data a) (cd_defines a) (cd_includes a) (cd_inits a) (cd_predefs a)
          (cd_init_include a) (cd_stdbool a || stdbool) (cd_stdint a || stdint)
          (cd_header_comment a) (cd_binary a).
Definition set_header_comment (s : string) (a : cdata) : cdata :=
  mkcdata (cd_data a) (cd_defines a) (cd_includes a) (cd_inits a) (cd_predefs a)
          (cd_init_include a) (cd_stdbool a) (cd_stdint a) s (cd_binary a).

(** generator.py 112-125, 224-237, 278-290: "[unit] text". *)
Definition item_comment (c : comment) : string :=
  (if String.eqb (cm_unit c) "" then "" else "[" ++ cm_unit c ++ "] ") ++ cm_text c.

(** generator.py 103-107 etc.: the comment of a definition, if not empty. *)
Definition def_comment_text (c : option comment) : option string :=
  match c with
  | Some c => if String.eqb (cm_text c) "" then None else Some (cm_text c)
  | None => None
  end.

(** One iteration of the loop 111-195 of [_convert_sequence_to_c]: the field
    and the stdbool/stdint flags.  [sds]: simple definitions (name, type) of
    the module and of the imported modules. *)
Definition convert_member (fuel : nat) (defs : list definition)
           (sds : list (string * asn_type)) (m : member)
  : result (cfield * bool * bool) :=
  let* cm := map_member fuel defs (m_type m) in                  (* 127-132 *)
  let posix := mem (lowerize (cm_ctype cm)) POSIX_DEFINED_TYPES in
  let ct := if posix then lowerize (cm_ctype cm) else cm_ctype cm in (* 138-140 *)
  let sb := cm_stdbool cm in
  let si := cm_stdint cm || posix in
  let* r :=
    match find (fun sd => String.eqb (c_name (fst sd)) ct) sds with  (* 142-157 *)
    | Some sd =>
        let* cm' := map_direct (snd sd) in
        Ok (cm_bits cm', cm_ctype cm', sb || cm_stdbool cm', si || cm_stdint cm')
    | None => Ok (cm_bits cm, ct, sb, si)
    end in
  let '(bits, ct, sb, si) := r in
  let arr :=                                                     (* 164-176 *)
    match resolve defs (m_type m) with
    | RArray n _ => Some n
    | RString n => Some n
    | _ => None
    end in
  Ok (mkcfield (option_map item_comment (m_comment m)) ct (c_name (m_key m)) bits arr,
      sb, si).

(** generator.py 93-209 ([_convert_sequence_to_c]).  [wch] is the
    [_with_components_handling] of the generator at hand.  A sequence without
    members would leave [definition_type_name_c] unbound (impossible by the
    grammar). *)
Fixpoint convert_members (fuel : nat) (defs : list definition)
         (sds : list (string * asn_type))
         (wch : string -> member -> result cdata) (name : string)
         (l : list member) (fields : list cfield) (acc : cdata)
  : result (list cfield * cdata) :=
  match l with
  | [] => Ok (fields, acc)
  | m :: r =>
      let* x := convert_member fuel defs sds m in
      let '(f, sb, si) := x in
      let acc := set_std sb si acc in
      let* acc :=
        match m_with m with
        | Some _ => let* c := wch (c_name name) m in Ok (extend_with_cdata acc c)
        | None => Ok acc
        end in
      convert_members fuel defs sds wch name r (fields ++ [f])%list acc
  end.

Definition convert_sequence (fuel : nat) (defs : list definition)
           (sds : list (string * asn_type))
           (wch : string -> member -> result cdata)
           (name : string) (cm : option comment) (l : list member) : result cdata :=
  let* x := convert_members fuel defs sds wch name l [] empty_cdata in
  let '(fields, acc) := x in
  let* _ := assert (negb (is_nil l)) UnboundLocalErr in
  Ok (add_data (CStruct (def_comment_text cm) (c_name name) fields) acc).

(** generator.py 211-258 ([_convert_enumerated_to_c]) *)
Definition convert_enumerated (name : string) (cm : option comment) (l : list enum_item)
  : cdata :=
  add_data
    (CEnum (def_comment_text cm) (c_name name)
       (map (fun e => (c_name (e_key e), e_pos e, option_map item_comment (e_comment e))) l))
    empty_cdata.

(** generator.py 260-317 ([_convert_choice_to_c]) *)
Definition convert_choice (name : string) (cm : option comment) (l : list member) : cdata :=
  set_std false
    (existsb (fun m => mem (type_name (m_type m)) POSIX_DEFINED_TYPES) l)
    (add_data
       (CUnion (def_comment_text cm) (c_name name) (lowerize (c_name name))
          (map (fun m => (c_name (type_name (m_type m)), c_name (m_key m),
                          option_map item_comment (m_comment m))) l))
       empty_cdata).

(** ** Rendering *)

(** generator.py 22 *)
Definition C_SPACES : string := "  ".

(** cgen.LineComment, cgen.Comment; cgen strips white space at the end of the
    lines it produces. *)
Definition line_comment (s : string) : string := rstrip ("// " ++ s).
Definition block_comment (s : string) : string := "/* " ++ s ++ " */".

Definition render_field (f : cfield) : string :=
  (match cf_comment f with
   | Some c => "  " ++ line_comment c ++ NL
   | None => ""
   end)
  ++ "  " ++ cf_type f ++ " " ++ cf_name f
  ++ (match cf_bits f with Some b => " : " ++ str_of_Z b | None => "" end)
  ++ (match cf_array f with Some n => "[" ++ str_of_Z n ++ "]" | None => "" end)
  ++ ";" ++ NL.

Definition concat_map_str {A} (f : A -> string) (l : list A) : string :=
  String.concat "" (map f l).

Definition render_opt_block (c : option string) : string :=
  match c with Some s => block_comment s ++ NL | None => "" end.

Definition render_decl (d : cdecl) : string :=
  match d with
  | CStruct cm name fields =>
      render_opt_block cm
      ++ "typedef struct" ++ NL ++ "{" ++ NL
      ++ concat_map_str render_field fields
      ++ "} __attribute__((packed)) " ++ name ++ ";"
  | CEnum cm name items =>                                   (* 216-254 *)
      render_opt_block cm
      ++ "typedef enum {" ++ NL
      ++ concat_map_str
           (fun x => let '(k, p, c) := x in
              C_SPACES ++ k ++ " = " ++ str_of_Z p ++ ","
              ++ (match c with Some c => "     " ++ line_comment c | None => "" end) ++ NL)
           items
      ++ "} __attribute__((packed)) " ++ name ++ ";"
  | CUnion cm name var items =>                              (* 265-313 *)
      render_opt_block cm
      ++ "union " ++ name ++ " {" ++ NL
      ++ concat_map_str
           (fun x => let '(t, k, c) := x in
              C_SPACES ++ t ++ " " ++ k ++ ";"
              ++ (match c with Some c => "     " ++ line_comment c | None => "" end))
           items
      ++ "} " ++ var ++ ";"
  end.

Definition quoted_include (f : string) : string :=
  "#include " ++ DQUOTE ++ f ++ DQUOTE.

Definition render_include (i : cinclude) : string :=
  match i with
  | IncComment s => line_comment s
  | IncFile f => quoted_include f
  | IncNote s => s
  end.

Definition render_define (d : cdefine) : string :=
  "#define " ++ df_name d ++ " " ++ df_value d ++ (if df_newline d then NL else "").

(** c_printer.py 27-37 *)
Definition guard_symbol (filename : string) : string :=
  "ASN1_PARSER_" ++ upper (replace_char "." "_" (c_name filename)) ++ "_INCLUDED".
Definition guard_open (filename : string) : string :=
  "#ifndef " ++ guard_symbol filename ++ NL ++ "#define " ++ guard_symbol filename ++ NL.
Definition guard_close (filename : string) : string :=
  "#endif // " ++ guard_symbol filename ++ NL.

(** c_printer.py 39-48 *)
Definition file_header (doc : string) : string :=
  "/*" ++ NL ++ "This file was autogenerated from ASN.1 model."
  ++ (if String.eqb doc "" then "" else NL ++ NL ++ doc)
  ++ NL ++ "*/" ++ NL.

(** c_printer.py 10-14 *)
Inductive header_type : Set := STORED_DATA | MSG | MSGIDS | STORED_DATA_BINARY.
Definition is_msgids (h : header_type) : bool :=
  match h with MSGIDS => true | _ => false end.
Definition is_stored_data (h : header_type) : bool :=
  match h with STORED_DATA => true | _ => false end.
Definition is_binary (h : header_type) : bool :=
  match h with STORED_DATA_BINARY => true | _ => false end.

(** c_printer.py 74-146: contents of the header file. *)
Definition render_header (c : cdata) (filename_h : string) (h : header_type) : string :=
  guard_open filename_h ++ NL
  ++ file_header (if is_msgids h then "" else cd_header_comment c) ++ NL
  ++ (if is_msgids h then
        (if is_nil (cd_defines c) then ""
         else concat_map_str (fun d => render_define d ++ NL) (cd_defines c) ++ NL)
      else
        (if cd_stdbool c then "#include <stdbool.h>" ++ NL else "")
        ++ (if cd_stdint c then "#include <stdint.h>" ++ NL else "")
        ++ concat_map_str (fun i => render_include i ++ NL) (cd_includes c)
        ++ NL
        ++ concat_map_str (fun d => render_decl d ++ NL ++ NL) (cd_data c))
  ++ (if is_stored_data h then
        (if is_nil (cd_predefs c) then ""
         else concat_map_str (fun p => p ++ NL) (cd_predefs c) ++ NL)
      else "")
  ++ guard_close filename_h.

(** c_printer.py 148-167: contents of the .c file. *)
Definition render_source (c : cdata) : string :=
  file_header (cd_header_comment c) ++ NL
  ++ (if String.eqb (cd_init_include c) "" then ""
      else cd_init_include c ++ NL ++ NL)
  ++ String.concat "" (cd_inits c).

(** A file is a name (relative to the output folder) and its contents; the
    contents of binary files are strings of bytes. *)
Definition file : Set := (string * string)%type.

Definition string_of_bytes (b : bytes) : string :=
  string_of_list_ascii (map (fun z => ascii_of_N (Z.to_N z)) b).

(** c_printer.py 57-180 ([print_to_file]): the files written (mode "w"), in
    order. *)
Definition print_to_file (c : cdata) (filename : string) (h : header_type) : list file :=
  ([((filename ++ ".h")%string, render_header c (filename ++ ".h") h)]
  ++ (if is_stored_data h then [((filename ++ ".c")%string, render_source c)] else [])
  ++ (if is_binary h then
        map (fun kv => ((fst kv ++ ".bin")%string, string_of_bytes (List.concat (snd kv))))
            (cd_binary c)
      else []))%list.

(** ** The loop shared by the cFS, C and binary generators

    generate_cfs (cfs/generator.py 50-167), generate_c (c/generator.py 31-118)
    and generate_binary (binary/generator.py 75-164) have the same shape; the
    parameters are what differs. *)

Open Scope list_scope.

(** SimpleDefinitions of a definition list, with their types. *)
Definition simple_defs (l : list definition) : list (string * asn_type) :=
  flat_map (fun d => match d with DSimple n t _ => [(n, t)] | _ => [] end) l.

(** cfs 70-78, 92-97; c 51-59, 73-78; binary 96-104, 118-123. *)
Definition simple_definition_list (b : bundle) (bm : bmodule) : list (string * asn_type) :=
  simple_defs (mod_defs (bm_mod bm))
  ++ flat_map
       (fun i => match nth_error (b_modules b) i with
                 | Some im => simple_defs (mod_defs (bm_mod im))
                 | None => []
                 end)
       (bm_imported bm).

(** cfs 62-88; c 43-69; binary 88-114: the include list at the start. *)
Definition initial_includes (include_name : string -> string) (m : module) : list cinclude :=
  (match mod_comment_import m with
   | Some c => [IncComment (cm_text c)]
   | None => []
   end)
  ++ map (fun it => IncFile (include_name (imp_module it))) (mod_imports m).

(** Body of the loop over the sorted definitions: cfs 100-142; c 80-105;
    binary 125-151.  [note]: the include line added for a SimpleDefinition. *)
Definition convert_definition (fuel : nat) (defs : list definition)
           (sds : list (string * asn_type))
           (note : string -> asn_type -> result (option string))
           (wch : string -> member -> result cdata)
           (acc : cdata) (d : definition) : result cdata :=
  match d with
  | DSimple n t _ =>
      let* s := note n t in
      Ok (match s with Some s => add_include (IncNote s) acc | None => acc end)
  | DSequence n c l =>
      let* x := convert_sequence fuel defs sds wch n c l in
      Ok (extend_with_cdata acc x)
  | DEnumerated n c l => Ok (extend_with_cdata acc (convert_enumerated n c l))
  | DChoice n c l => Ok (extend_with_cdata acc (convert_choice n c l))
  end.

Fixpoint convert_definitions (fuel : nat) (defs : list definition)
         (sds : list (string * asn_type))
         (note : string -> asn_type -> result (option string))
         (wch : string -> member -> result cdata)
         (l : list definition) (acc : cdata) : result cdata :=
  match l with
  | [] => Ok acc
  | d :: r =>
      let* acc := convert_definition fuel defs sds note wch acc d in
      convert_definitions fuel defs sds note wch r acc
  end.

(** The CData of one module: cfs 60-149; c 41-110; binary 86-156. *)
Definition module_cdata (fuel : nat) (b : bundle) (bm : bmodule)
           (include_name : string -> string)
           (note : string -> asn_type -> result (option string))
           (wch : string -> member -> result cdata) : result cdata :=
  let m := bm_mod bm in
  let c0 := mkcdata [] [] (initial_includes include_name m) [] [] "" false false "" [] in
  let* sorted := sorted_definitions fuel m in
  let* c := convert_definitions fuel (all_defs b) (simple_definition_list b bm)
                                note wch sorted c0 in
  Ok (match mod_comment m with
      | Some cm => if String.eqb (cm_text cm) "" then c
                   else set_header_comment (cm_text cm) c
      | None => c
      end).

(** What a generator has done: the files written so far, and how it ended. *)
Definition outcome : Type := (list file * result unit)%type.

Fixpoint for_modules (f : bmodule -> result (list file)) (l : list bmodule)
         (written : list file) : outcome :=
  match l with
  | [] => (written, Ok tt)
  | m :: r =>
      match f m with
      | Ok fs => for_modules f r (written ++ fs)
      | Err e => (written, Err e)
      | OutOfFuel => (written, OutOfFuel)
      end
  end.

(** The whole generator: cfs 57-167; c 38-118; binary 83-164. *)
Definition generate_modules (fuel : nat) (b : bundle)
           (f : bmodule -> result (list file)) : outcome :=
  match get_modules_ordered fuel b with
  | Ok l => for_modules f l []
  | Err e => ([], Err e)
  | OutOfFuel => ([], OutOfFuel)
  end.
