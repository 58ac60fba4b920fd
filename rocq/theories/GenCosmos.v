(** * COSMOS generator: generators/cosmos/generator.py, templates.py,
      telemetry.py *)
From Verif Require Import Base PyNum PyStr Ast Size Processor Bundle Sorter.
Open Scope string_scope.

(** generator.py 37 *)
Definition COSMOS_KEY_APID := "application-process-identifier".

(** A definition object: module number, position in the module, definition.
    Two references are the same object iff both numbers agree. *)
Record dref : Set := mkdref { dr_mod : nat; dr_pos : nat; dr_def : definition }.
Definition same_object (a b : dref) : bool :=
  Nat.eqb (dr_mod a) (dr_mod b) && Nat.eqb (dr_pos a) (dr_pos b).

Fixpoint number_defs (mi i : nat) (l : list definition) : list dref :=
  match l with
  | [] => []
  | d :: r => mkdref mi i d :: number_defs mi (S i) r
  end.

Definition module_drefs (b : bundle) (mi : nat) : list dref :=
  match nth_error (b_modules b) mi with
  | Some bm => number_defs mi 0 (mod_defs (bm_mod bm))
  | None => []
  end.

Fixpoint dedup_drefs (l : list dref) : list dref :=
  match l with
  | [] => []
  | x :: r => x :: filter (fun y => negb (same_object x y)) (dedup_drefs r)
  end.

(** generator.py 248-276 ([_get_definitions_recurs]), from module number
    [mi]; fuel bounds the depth of the import graph walk (Python: a
    RecursionError when imports are circular). *)
Fixpoint definitions_recurs (fuel : nat) (b : bundle) (n : string) (mi : nat)
  : result (list dref) :=
  match fuel with
  | O => OutOfFuel
  | S fuel' =>
      let* imported :=
        map_result (definitions_recurs fuel' b n)
                   (match nth_error (b_modules b) mi with
                    | Some bm => bm_imported bm
                    | None => []
                    end) in
      Ok (dedup_drefs
            (filter (fun d => String.eqb (def_name (dr_def d)) n)
                    (module_drefs b mi ++ flatten imported)))
  end.

(** generator.py 278-294 ([_get_definition]) *)
Definition get_definition (fuel : nat) (b : bundle) (n : string) (mi : nat) : result dref :=
  let* l := definitions_recurs fuel b n mi in
  match l with
  | [d] => Ok d
  | _ => Err ConsistencyError
  end.

(** generator.py 296-310 ([_range_subrange_data_type]); comparing None with a
    float is a TypeError.  Result: begin and end. *)
Definition subrange (c : ctype) (b e : option num) : result (option (num * num)) :=
  let test lo hi :=
    match b, e with
    | Some b, Some e =>
        Ok (if num_lt (NFloat lo) b || num_lt e (NFloat hi) then Some (b, e) else None)
    | _, _ => Err TypeErr
    end in
  match c with
  | A_FLOAT => test FLOAT_MIN FLOAT_MAX
  | A_DOUBLE => test DOUBLE_MIN DOUBLE_MAX
  | _ => Ok None
  end.

(** telemetry.py 19-42 *)
Record entry : Set := mkentry
  { te_name : string;
    te_bits : Z;
    te_type : ctype;
    te_value : string;                     (* "" : none *)
    te_comment : string;
    te_unit : string;
    te_range : option (num * num);
    te_states : list string;
    te_array : bool;
    te_little : bool }.

(** [str(value)].  A clause prints as a list of object addresses; a fixed text
    stands for it. *)
Definition str_value (v : wval) : string :=
  match v with
  | VInt z => str_of_Z z
  | VFloat f => frepr f
  | VBool b => if b then "True" else "False"
  | VWith _ => "[<ComponentsItem>]"
  end.

(** [f"0x{value:02X}"], 220-221; "" is a str: ValueError. *)
Definition apid_value (v : option wval) : result string :=
  match v with
  | None => Err ValueErr
  | Some (VInt z) => Ok ("0x" ++ format_X 2 z)
  | Some (VBool b) => Ok ("0x" ++ format_X 2 (if b then 1 else 0))
  | Some (VFloat _) => Err ValueErr
  | Some (VWith _) => Err TypeErr
  end.

(** The component lists of the model's own clauses, which line 149 extends in
    place.  A state maps (module, definition, member) to the current list;
    no entry: as parsed. *)
Definition cstate := list (nat * nat * nat * list witem).

Fixpoint state_get (st : cstate) (mi di k : nat) : option (list witem) :=
  match st with
  | [] => None
  | (a, b, c, l) :: r =>
      if Nat.eqb a mi && Nat.eqb b di && Nat.eqb c k then Some l
      else state_get r mi di k
  end.
Definition state_set (st : cstate) (mi di k : nat) (l : list witem) : cstate :=
  (mi, di, k, l) :: st.

(** 132-134: the components of a member's own clause, if it has one. *)
Definition own_components (st : cstate) (mi di k : nat) (m : member) : option (list witem) :=
  match m_with m with
  | None => None
  | Some w =>
      match state_get st mi di k with
      | Some l => Some l
      | None => Some (wc_items w)
      end
  end.

(** 135-144: the value given to a member by the enclosing clause. *)
Definition given_value (with_comp : list witem) (key : string) : option wval :=
  match filter (fun c => String.eqb (wi_key c) key) with_comp with
  | [c] => Some (wi_value c)
  | _ => None
  end.

(** 132-149: the list handed down to a nested definition, and the new state. *)
Definition hand_down (st : cstate) (mi di k : nat) (m : member) (given : option wval)
  : list witem * cstate :=
  let inner := match given with Some (VWith w) => Some (wc_items w) | _ => None end in
  match own_components st mi di k m, inner with
  | None, None => ([], st)
  | None, Some i => (i, st)                         (* a fresh list *)
  | Some o, None => (o, st)
  | Some o, Some i => (o ++ i, state_set st mi di k (o ++ i))%list
  end.

(** What 160-204 finds out about the type of a member: either a nested
    definition to descend into, or state list, c_type and bounds. *)
Inductive leaf_info : Set :=
| Nested (d : dref)
| Leaf (states : list string) (c : option ctype) (b e : option num).

Definition member_info (fuel : nat) (b : bundle) (mi : nat) (t : asn_type)
  : result leaf_info :=
  let n := type_name t in
  let bg := type_begin t in
  let en := type_end t in
  if mem n ["INTEGER"; "REAL"] then Ok (Leaf [] (get_c_type t) bg en)      (* 171 *)
  else if String.eqb n "BOOLEAN" then
    Ok (Leaf ["False"; "True"] (get_c_type t) bg en)                       (* 173 *)
  else match t with
  | TString _ len => Ok (Leaf [] (get_c_type t) bg (Some (NInt len)))      (* 176 *)
  | _ =>
      let* d := get_definition fuel b n mi in                              (* 180 *)
      match dr_def d with
      | DSimple _ t' _ =>                                                  (* 183 *)
          Ok (Leaf [] (get_c_type t') (type_begin t') (type_end t'))
      | DEnumerated _ _ l =>                                               (* 189 *)
          Ok (Leaf (map e_key l) (Some A_UINT) (Some (NInt 0))
                   (Some (NInt (Z.of_nat (List.length l) - 1))))
      | _ => Ok (Nested d)
      end
  end.

(** 206-238: the entry of a leaf. *)
Definition leaf_entry (m : member) (given : option wval)
           (states : list string) (c : option ctype) (bg en : option num)
  : result entry :=
  match c with
  | None => Err NotImplementedErr
  | Some c =>
      let* bits := get_bit_size c bg en in
      let* range := subrange c bg en in
      let arr := match m_type m with TArray n _ => Some n | _ => None end in
      let* v :=
        match arr with
        | Some n => Ok (str_of_Z (n * bits))
        | None =>
            if String.eqb (m_key m) COSMOS_KEY_APID then apid_value given
            else Ok (match given with Some v => str_value v | None => "" end)
        end in
      Ok (mkentry (m_key m) bits c v
                  (match m_comment m with Some cm => cm_text cm | None => "" end)
                  (match m_comment m with Some cm => cm_unit cm | None => "" end)
                  range states
                  (match arr with Some _ => true | None => false end)
                  (match m_comment m with Some cm => cm_little_endian cm | None => false end))
  end.

(** 118-246 ([_create_telemetry_item_data]).  [root] is the number of the
    module generated; fuel bounds the nesting of definitions.  A recursive
    type would change the list that is being read, see DESIGN.md; it does not
    end in the code either. *)
Fixpoint items_of (fuel : nat) (b : bundle) (root : nat) (d : dref)
         (with_comp : list witem) (st : cstate) : result (list entry * cstate) :=
  match fuel with
  | O => OutOfFuel
  | S fuel' =>
      match dr_def d with
      | DSequence _ _ ms =>
          (fix go (k : nat) (l : list member) (st : cstate)
             : result (list entry * cstate) :=
             match l with
             | [] => Ok ([], st)
             | m :: r =>
                 let given := given_value with_comp (m_key m) in
                 let '(down, st) := hand_down st (dr_mod d) (dr_pos d) k m given in
                 let* info := member_info fuel' b root (m_type m) in
                 let* x :=
                   match info with
                   | Nested d' => items_of fuel' b root d' down st
                   | Leaf states c bg en =>
                       let* e := leaf_entry m given states c bg en in
                       Ok ([e], st)
                   end in
                 let '(es, st) := x in
                 let* y := go (S k) r st in
                 let '(rest, st) := y in
                 Ok (es ++ rest, st)%list
             end) 0%nat ms st
      | DChoice _ _ _ => Err NotImplementedErr
      | _ => Err GenericException
      end
  end.

(** ** templates.py *)

(** size.py 26-32: [c_type.value] *)
Definition ctype_value (c : ctype) : string :=
  match c with
  | A_BOOL => "BOOL" | A_UINT => "UINT" | A_INT => "INT"
  | A_STRING => "STRING" | A_FLOAT => "FLOAT" | A_DOUBLE => "DOUBLE"
  end.

(** templates.py 10 *)
Definition INDENT := "    ".

(** 57-76: type name, value and keyword of an item line. *)
Definition cosmos_type (c : ctype) : string :=
  match c with
  | A_BOOL => "UINT"
  | A_DOUBLE => "FLOAT"
  | _ => ctype_value c
  end.
Definition cosmos_value (e : entry) : string :=
  match te_type e with
  | A_BOOL => if String.eqb (te_value e) "True" then "1" else "0"
  | _ => te_value e
  end.
Definition id_or_array (e : entry) : string :=
  if te_array e then "APPEND_ARRAY_ITEM"
  else if String.eqb (cosmos_value e) "" then "APPEND_ITEM"
  else "APPEND_ID_ITEM".

Definition str_num (n : num) : string :=
  match n with NInt z => str_of_Z z | NFloat f => frepr f end.

(** 11-25, 80-88 *)
Definition item_line (e : entry) : string :=
  replace_space_nl
    (INDENT ++ ljust 19 (id_or_array e) ++ " " ++ ljust 31 (te_name e) ++ " "
     ++ rjust 7 (str_of_Z (te_bits e)) ++ " " ++ ljust 7 (cosmos_type (te_type e)) ++ " "
     ++ rjust 7 (cosmos_value e) ++ " "
     ++ DQUOTE ++ te_comment e ++ DQUOTE ++ " "
     ++ (if te_little e then "LITTLE_ENDIAN" else "") ++ NL).

(** 26, 90-94 *)
Fixpoint state_lines (i : Z) (l : list string) : string :=
  match l with
  | [] => ""
  | s :: r => INDENT ++ INDENT ++ "STATE " ++ ljust 31 s ++ " " ++ str_of_Z i ++ NL
              ++ state_lines (i + 1) r
  end.

(** 27-31, 96-103 *)
Definition limits_line (r : option (num * num)) : string :=
  match r with
  | None => ""
  | Some (b, e) =>
      INDENT ++ INDENT ++ "LIMITS DEFAULT 5 ENABLED " ++ str_num b ++ " " ++ str_num b
      ++ " " ++ str_num e ++ " " ++ str_num e ++ NL
  end.

(** 32, 105-106 *)
Definition units_line (u : string) : string :=
  if String.eqb u "" then "" else INDENT ++ INDENT ++ "UNITS " ++ u ++ " " ++ u ++ NL.

Definition entry_text (e : entry) : string :=
  item_line e ++ state_lines 0 (te_states e) ++ limits_line (te_range e)
  ++ units_line (te_unit e).

(** 35-108 ([cosmos_telemetry]) *)
Definition cosmos_telemetry (target comment pkt : string) (l : list entry) : string :=
  "TELEMETRY " ++ target ++ " " ++ pkt ++ " BIG_ENDIAN " ++ DQUOTE ++ comment ++ DQUOTE ++ NL
  ++ String.concat "" (map entry_text l).

(** ** generator.py 43-116 ([generate_cosmos]) *)

(** Number of the first module with the given name (asn1_bundle.py 16-21). *)
Fixpoint index_of (n : string) (i : nat) (l : list bmodule) : option nat :=
  match l with
  | [] => None
  | bm :: r => if String.eqb (bm_name bm) n then Some i else index_of n (S i) r
  end.

(** One message: name, comment and entries. *)
Record packet : Set := mkpacket
  { pk_name : string; pk_comment : string; pk_entries : list entry }.

Fixpoint packets (fuel : nat) (b : bundle) (mi : nat) (l : list string) (st : cstate)
  : result (list packet) :=
  match l with
  | [] => Ok []
  | n :: r =>
      match dict_get n (map (fun d => (def_name (dr_def d), d)) (module_drefs b mi)) with
      | None => Err KeyErr
      | Some d =>
          let* x := items_of fuel b mi d [] st in
          let '(es, st) := x in
          let* rest := packets fuel b mi r st in
          Ok (mkpacket (def_name (dr_def d))
                       (match def_comment (dr_def d) with
                        | Some c => cm_text c | None => "" end) es :: rest)
      end
  end.

(** 50-99: all packets, before anything is written. *)
Definition cosmos_packets (fuel : nat) (b : bundle) (module_name : string)
           (messages : list string) : result (list packet) :=
  let* bm := get_module b module_name in
  let names := match bm with
               | Some bm => map def_name (mod_defs (bm_mod bm))
               | None => []
               end in
  let* _ := assert (is_nil (set_diff messages names)) GenericException in   (* 65-67 *)
  match index_of module_name 0 (b_modules b) with
  | None => Ok []                    (* messages is empty then *)
  | Some mi => packets fuel b mi messages []
  end.

(** 95-116: the text appended to <output_file_name>.txt. *)
Definition cosmos_text (target : string) (l : list packet) : string :=
  "# This file was autogenerated from ASN.1 model." ++ NL
  ++ String.concat ""
       (map (fun p => NL ++ cosmos_telemetry target (pk_comment p) (pk_name p) (pk_entries p)) l).

Definition generate_cosmos (fuel : nat) (b : bundle) (module_name : string)
           (messages : list string) (target : string) : result (string * string) :=
  let* l := cosmos_packets fuel b module_name messages in
  Ok (target ++ ".txt", cosmos_text target l).
