(** * Object and model processors: asn1/processor.py, asn1/parser.py *)
From Verif Require Import Base PyNum PyStr Ast Size.
Open Scope string_scope.

(** processor.py 167-214 ([asn1_type]): range check, then the [TypeEnum] the
    type is mapped to (None: not a directly representable type). *)
Definition asn1_type (t : asn_type) : result (option ctype) :=
  let b := type_begin t in
  let e := type_end t in
  let* _ :=                                             (* 170-174 *)
    match b, e with
    | Some b, Some e => assert (negb (num_lt e b)) ValueErr
    | _, _ => Ok tt
    end in
  let n := type_name t in
  match posix_range n with                              (* 182-192 *)
  | Some _ =>
      if startswith "Uint" n then Ok (Some A_UINT)
      else if startswith "Int" n then Ok (Some A_INT)
      else if String.eqb n "Float" then Ok (Some A_FLOAT)
      else if String.eqb n "Double" then Ok (Some A_DOUBLE)
      else Ok None
  | None =>
      match String.eqb n "INTEGER", b, e with           (* 193-198 *)
      | true, Some b, Some e =>
          if num_le (NInt 0) b then Ok (Some A_UINT) else Ok (Some A_INT)
      | _, _, _ =>
          match String.eqb n "REAL", b, e with          (* 199-207 *)
          | true, Some b, Some e =>
              if num_le (NFloat FLOAT_MIN) b && num_le e (NFloat FLOAT_MAX)
              then Ok (Some A_FLOAT)
              else if num_le (NFloat DOUBLE_MIN) b && num_le e (NFloat DOUBLE_MAX)
              then Ok (Some A_DOUBLE)
              else Err FloatingPointErr
          | _, _, _ =>
              if String.eqb n "BOOLEAN" then Ok (Some A_BOOL)   (* 208-209 *)
              else match t with                                (* 210-213 *)
                   | TString _ _ => Ok (Some A_STRING)
                   | _ => Ok None
                   end
          end
      end
  end.

(** The attribute stored by processor.py 214 and read by
    asn1_type.py 77-78 ([get_c_type]). *)
Definition get_c_type (t : asn_type) : option ctype :=
  match asn1_type t with Ok c => c | _ => None end.

(** textX runs the processor on contained objects first, so the element type
    of an array is processed before the array. *)
Fixpoint process_type (t : asn_type) : result unit :=
  let* _ := match t with TArray _ e => process_type e | _ => Ok tt end in
  let* _ := asn1_type t in Ok tt.

(** processor.py 256-268 ([check_comment]). The error message needs
    [get_parent().get_key()]: parents without a key (definitions, modules,
    imports, clauses) give an AttributeError instead of the syntax error. *)
Definition check_comment (parent_has_key : bool) (c : comment) : result unit :=
  if String.eqb (cm_text c) "" then Ok tt
  else if contains "[" (cm_text c) || contains "]" (cm_text c)
          || contains "--" (cm_text c)
  then Err (if parent_has_key then TextXSyntaxError else AttributeErr)
  else Ok tt.

Definition check_comment_opt (parent_has_key : bool) (c : option comment)
  : result unit :=
  match c with Some c => check_comment parent_has_key c | None => Ok tt end.

(** Comments of a WITH COMPONENTS clause and its components, in the order of
    the grammar attributes. *)
Fixpoint process_wval (v : wval) : result unit :=
  match v with
  | VWith w => process_wcomps w
  | _ => Ok tt
  end
with process_wcomps (w : wcomps) : result unit :=
  match w with
  | WC c l =>
      let* _ := check_comment_opt false c in
      (fix go (l : list witem) : result unit :=
         match l with
         | [] => Ok tt
         | i :: r => let* _ := process_witem i in go r
         end) l
  end
with process_witem (i : witem) : result unit :=
  match i with
  | WI _ v c =>
      let* _ := process_wval v in
      check_comment_opt true c
  end.

(** processor.py 237-250, first half of [null_exception_catch] *)
Definition null_check (t : asn_type) : result unit :=
  assert (negb (String.eqb (type_name t) "NULL")) ConsistencyError.

(** processor.py 217-234 ([check_posix]) *)
Definition check_posix (name : string) (t : asn_type) : result unit :=
  match posix_range name with
  | None => Ok tt
  | Some (pb, pe) =>
      match type_begin t, type_end t with
      | Some b, Some e => assert (num_eq pb b && num_eq pe e) ConsistencyError
      | _, _ => Err ConsistencyError
      end
  end.

(** grammar.py 64-86 with the processors of its parts, then
    [null_exception_catch]. *)
Definition process_member (m : member) : result unit :=
  let* _ := process_type (m_type m) in
  let* _ := check_comment_opt true (m_comment m) in
  let* _ := match m_with m with Some w => process_wcomps w | None => Ok tt end in
  null_check (m_type m).

(** processor.py 271-293 ([check_enumerated]).
    [place]: the loop 287-292 over the items, with Python's indexing (negative
    indices count from the end); [None] marks a free slot. *)
Fixpoint place (l : list enum_item) (slots : list (option enum_item))
  : result (list (option enum_item)) :=
  match l with
  | [] => Ok slots
  | e :: r =>
      let n := Z.of_nat (List.length slots) in
      let p := e_pos e in
      let i := if (p <? 0)%Z then (n + p)%Z else p in
      if ((0 <=? i) && (i <? n))%Z then
        match nth_error slots (Z.to_nat i) with
        | Some None => place r (list_set (Z.to_nat i) (Some e) slots)
        | _ => Err IndexErr                        (* 292: slot taken *)
        end
      else Err IndexErr                            (* list index out of range *)
  end.

Fixpoint renumber (i : Z) (l : list enum_item) : list enum_item :=
  match l with
  | [] => []
  | e :: r => set_pos i e :: renumber (i + 1) r
  end.

Definition zsum (l : list Z) : Z := fold_right Z.add 0%Z l.

(** [sum(i for i in range(n))] *)
Definition sum_range (n : nat) : Z := zsum (map Z.of_nat (seq 0 n)).

(** The list handed to [set_enum]; free slots would be None objects, on which
    every later use raises AttributeError. *)
Definition check_enumerated (l : list enum_item) : result (list enum_item) :=
  let pos_sum := zsum (map e_pos l) in
  if (pos_sum =? 0)%Z then Ok (renumber 0 l)                 (* 273-278 *)
  else if negb (pos_sum =? sum_range (List.length l))%Z
  then Err IndexErr                                          (* 279-282 *)
  else                                                       (* 283-293 *)
    let* slots := place l (repeat None (List.length l)) in
    map_result (fun o => match o with Some e => Ok e | None => Err AttributeErr end)
               slots.

Definition process_enum_item (e : enum_item) : result unit :=
  check_comment_opt true (e_comment e).

(** One definition: processors of its parts in grammar order, then its own. *)
Definition process_definition (d : definition) : result definition :=
  match d with
  | DSequence _ c l | DChoice _ c l =>
      let* _ := check_comment_opt false c in
      let* _ := for_each process_member l in
      Ok d
  | DEnumerated n c l =>
      let* _ := check_comment_opt false c in
      let* _ := for_each process_enum_item l in
      let* l' := check_enumerated l in
      Ok (DEnumerated n c l')
  | DSimple n t c =>
      let* _ := process_type t in
      let* _ := check_comment_opt false c in
      let* _ := null_check t in
      let* _ := check_posix n t in                            (* 252-253 *)
      Ok d
  end.

(** processor.py 41-55 ([_check_types_once_defined]) *)
Definition defined_types (m : module) : list string :=
  PREDEFINED_LIST
    ++ flatten (map imp_names (mod_imports m))
    ++ map def_name (mod_defs m).

(** processor.py 58-81 ([model_processor_check_used_types_defined]) *)
Definition check_used_types_defined (m : module) : result unit :=
  for_each
    (fun d => for_each
       (fun k => assert (mem (type_name (m_type k)) (defined_types m)) ConsistencyError)
       (def_children d))
    (mod_defs m).

Definition process_import (i : import_item) : result unit :=
  check_comment_opt false (imp_comment i).

(** parser.py 92-105 ([parse_from_text]) with is_multimodule=True, on the
    object graph of one module. *)
Definition parse_module (m : module) : result module :=
  let* _ := check_comment_opt false (mod_comment m) in
  let* _ := for_each process_import (mod_imports m) in
  let* _ := check_comment_opt false (mod_comment_import m) in
  let* defs := map_result process_definition (mod_defs m) in
  let m' := mkmodule (mod_name m) (mod_comment m) (mod_imports m)
                     (mod_comment_import m) defs in
  let* _ := check_used_types_defined m' in
  Ok m'.

(** processor.py 117-119: the sequences with a given type name. *)
Definition sequences_named (seqs : list definition) (n : string) : list definition :=
  filter (fun s => String.eqb (def_name s) n) seqs.

(** processor.py 102-150 ([_check_with_component]). [seqs] are the Sequence
    definitions; recursion is on the clause. *)
Fixpoint check_wcomps (seqs : list definition) (type_n : string) (w : wcomps)
  : result unit :=
  match w with
  | WC _ l =>
      match sequences_named seqs type_n with
      | [s] =>                                               (* 120 *)
          (fix go (l : list witem) : result unit :=
             match l with
             | [] => Ok tt
             | WI k v _ :: r =>
                 let* _ := assert (mem k (map m_key (seq_children s)))
                                  ConsistencyError in        (* 126-131 *)
                 let* _ :=
                   match v with
                   | VWith w' =>                             (* 134-146 *)
                       match find (fun m => String.eqb (m_key m) k) (seq_children s) with
                       | Some m => check_wcomps seqs (type_name (m_type m)) w'
                       | None => Err IndexErr
                       end
                   | _ => Ok tt
                   end in
                 go r
             end) l
      | _ =>
          assert (mem type_n PREDEFINED_LIST) ConsistencyError   (* 147-150 *)
      end
  end.

(** processor.py 84-99 ([model_processor_check_used_components_defined]), on
    the definitions of a module. *)
Definition check_used_components_defined (defs : list definition) : result unit :=
  let seqs := filter is_sequence defs in
  for_each
    (fun d => for_each
       (fun k => match m_with k with
                 | Some w => check_wcomps seqs (type_name (m_type k)) w
                 | None => Ok tt
                 end)
       (seq_children d))
    defs.

(** parser.py 92-105 with is_multimodule=False (used for single texts). *)
Definition parse_single (m : module) : result module :=
  let* m' := parse_module m in
  let* _ := check_used_components_defined (mod_defs m') in
  Ok m'.

(** parser.py 107-117 ([parse_from_text_multimodule]); [parse_from_files]
    79-90 only reads the texts. *)
Definition parse_modules (ms : list module) : result (list module) :=
  map_result parse_module ms.
