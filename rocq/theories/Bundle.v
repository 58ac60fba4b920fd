(** * Bundles: asn1/asn1_bundle.py, asn1/asn1_bundle_builder.py,
      asn1/validation/asn1_bundle_validator.py, and the [get_size_bits]
      methods of asn1/grammar_elements/*.py *)
From Verif Require Import Base PyNum PyStr Ast Size Processor.
Open Scope string_scope.

(** A module of a bundle: the module object and its list of imported modules
    (asn1_module.py 36, 74-81).  Module objects are identified by their
    position in the bundle's list of modules. *)
Record bmodule : Set := mkbmodule { bm_mod : module; bm_imported : list nat }.

(** asn1_bundle.py 7-14.  [b_uses]: the dict name -> set of module names. *)
Record bundle : Set := mkbundle
  { b_modules : list bmodule; b_uses : list (string * list string) }.

Definition bm_name (b : bmodule) : string := mod_name (bm_mod b).

(** asn1_bundle.py 30-31 ([get_modules_names]) *)
Definition module_names (b : bundle) : list string := map bm_name (b_modules b).

(** Position of the last module with a given name: the one that stays in the
    dict [asn_models] (asn1_bundle_builder.py 114-122). *)
Fixpoint last_index_from (i : nat) (n : string) (l : list module) : option nat :=
  match l with
  | [] => None
  | m :: r =>
      match last_index_from (S i) n r with
      | Some j => Some j
      | None => if String.eqb n (mod_name m) then Some i else None
      end
  end.
Definition last_index (n : string) (l : list module) : option nat :=
  last_index_from 0 n l.

(** asn1_bundle_builder.py 114-122: the dependencies of a module. *)
Definition dependencies (m : module) : list string := map imp_module (mod_imports m).

(** asn1_bundle_builder.py 125-140 ([_resolve_dependencies]), the check: for
    every module in the dict all dependencies must be known. *)
Definition check_dependencies (ms : list module) : result unit :=
  let names := map mod_name ms in
  for_each
    (fun n =>
       match last_index n ms with
       | None => Ok tt
       | Some i =>
           match nth_error ms i with
           | None => Ok tt
           | Some m => assert (is_nil (set_diff (dependencies m) names)) SyntaxErr
           end
       end)
    (dedup names).

(** The list of imported modules a module ends up with: one entry per import
    item, only for modules that are in the dict (139-140). *)
Definition imported_of (ms : list module) (i : nat) (m : module) : list nat :=
  match last_index (mod_name m) ms with
  | Some j =>
      if Nat.eqb i j then
        flat_map (fun n => match last_index n ms with Some k => [k] | None => [] end)
                 (dependencies m)
      else []
  | None => []
  end.

Fixpoint attach_imports (ms : list module) (i : nat) (l : list module) : list bmodule :=
  match l with
  | [] => []
  | m :: r => mkbmodule m (imported_of ms i m) :: attach_imports ms (S i) r
  end.

(** asn1_bundle_builder.py 221-240 ([_parse_for_simple_defs]) *)
Definition parse_for_simple_defs (m : module) : list string :=
  flat_map
    (fun d =>
       flat_map
         (fun k => match m_with k with
                   | Some _ => []
                   | None =>
                       let n := type_name (m_type k) in
                       if mem n PREDEFINED_LIST then [] else [n]
                   end)
         (def_children d))
    (mod_defs m).

(** asn1_bundle_builder.py 36-41: [uses[s].add(module)], creating the set if
    it is missing. *)
Fixpoint add_use (s mname : string) (uses : list (string * list string))
  : list (string * list string) :=
  match uses with
  | [] => [(s, [mname])]
  | (k, v) :: r =>
      if String.eqb s k
      then (k, if mem mname v then v else v ++ [mname])%list :: r
      else (k, v) :: add_use s mname r
  end.

Definition module_uses (uses : list (string * list string)) (m : module)
  : list (string * list string) :=
  fold_left (fun u s => add_use s (mod_name m) u) (parse_for_simple_defs m) uses.

(** asn1_bundle_builder.py 27-47 ([build]).  The types attached by
    [_resolve_types] are a function of all definitions, see [lookup_def]. *)
Definition build (ms : list module) : result bundle :=
  let uses := fold_left module_uses ms [] in
  let* _ := check_dependencies ms in
  Ok (mkbundle (attach_imports ms 0 ms) uses).

Definition all_modules (b : bundle) : list module := map bm_mod (b_modules b).
Definition all_defs (b : bundle) : list definition := flat_map mod_defs (all_modules b).

(** asn1_bundle_builder.py 149-152: dict of all definitions by name, the last
    one wins. *)
Definition lookup_def (defs : list definition) (n : string) : option definition :=
  dict_get n (map (fun d => (def_name d, d)) defs).

(** The [_type] attribute of a SEQUENCE member's type after [_resolve_types]
    (asn1_type.py 22-31, asn1_bundle_builder.py 154-160).  Sequences hidden by
    a later definition of the same name are not resolved by the code; the
    model ignores this, such bundles are rejected before any use. *)
Inductive rtype : Set :=
| RArray (len : Z) (elem : asn_type)
| RString (len : Z)
| RDef (d : definition)
| RNone.

Definition resolve (defs : list definition) (t : asn_type) : rtype :=
  match t with
  | TArray n e => RArray n e
  | TString _ n => RString n
  | _ => match lookup_def defs (type_name t) with
         | Some d => RDef d
         | None => RNone
         end
  end.

(** asn1_type.py 91-98: size of a type without [_type]. *)
Definition base_size (t : asn_type) : result Z :=
  match get_c_type t with
  | Some c => get_bit_size c (type_begin t) (type_end t)
  | None => Err NotImplementedErr
  end.

(** simple_definition.py 33-37 with asn1_type.py 83-98: the type of a simple
    definition is not resolved; array.py 21-23 and asn1_string.py 22-23. *)
Definition simple_size (t : asn_type) : result Z :=
  match t with
  | TArray n _ => Ok (n * 8)%Z
  | TString _ n => Ok (n * 8)%Z
  | _ => base_size t
  end.

(** [max(values)] *)
Definition zmax (l : list Z) : result Z :=
  match l with
  | [] => Err ValueErr
  | x :: r => Ok (fold_left Z.max r x)
  end.

(** enumerated.py 34-40 *)
Definition enum_size (l : list enum_item) : result Z :=
  let* m := zmax (map e_pos l) in Ok (bit_length m).

(** [member.get_size_bits()] (key_type_pair.py 55-59, asn1_type.py 83-98),
    [Sequence.get_size_bits] (sequence.py 32-41); a Choice has no such method.
    Fuel bounds the nesting depth. *)
Fixpoint member_size (fuel : nat) (defs : list definition) (t : asn_type) : result Z :=
  match fuel with
  | O => OutOfFuel
  | S fuel' =>
      match resolve defs t with
      | RArray n _ => Ok (n * 8)%Z
      | RString n => Ok (n * 8)%Z
      | RNone => base_size t
      | RDef d =>
          match d with
          | DSequence _ _ l =>
              fold_left
                (fun acc m =>
                   let* s := acc in
                   let* x := member_size fuel' defs (m_type m) in
                   Ok (s + x)%Z)
                l (Ok 0%Z)
          | DChoice _ _ _ => Err AttributeErr
          | DEnumerated _ _ l => enum_size l
          | DSimple _ t' _ => simple_size t'
          end
      end
  end.

Definition sequence_size (fuel : nat) (defs : list definition) (l : list member)
  : result Z :=
  fold_left
    (fun acc m =>
       let* s := acc in
       let* x := member_size fuel defs (m_type m) in
       Ok (s + x)%Z)
    l (Ok 0%Z).

(** asn1_bundle_validator.py 39-63: imported names must be defined in the
    module they are imported from. *)
Definition check_imports (b : bundle) : result unit :=
  for_each
    (fun bm =>
       for_each
         (fun i =>
            match nth_error (b_modules b) i with
            | None => Ok tt
            | Some im =>
                let defs := map def_name (mod_defs (bm_mod im)) in
                let types :=
                  flatten (map imp_names
                    (filter (fun it => String.eqb (imp_module it) (bm_name im))
                            (mod_imports (bm_mod bm)))) in
                assert (is_nil (set_diff types defs)) ConsistencyError
            end)
         (bm_imported bm))
    (b_modules b).

(** asn1_bundle_validator.py 40-73 *)
Definition check_imported_types_and_components (b : bundle) : result unit :=
  let* _ := check_imports b in
  check_used_components_defined (all_defs b).

(** asn1_bundle_validator.py 76-102 *)
Fixpoint check_duplicates (seen : list string) (l : list definition) : result unit :=
  match l with
  | [] => Ok tt
  | d :: r =>
      if mem (def_name d) seen then Err ConsistencyError
      else check_duplicates (def_name d :: seen) r
  end.

(** asn1_bundle_validator.py 34-37 *)
Definition validate_bundle (b : bundle) : result unit :=
  let* _ := check_imported_types_and_components b in
  check_duplicates [] (all_defs b).

(** asn1_bundle_validator.py 105-156 ([check_missing_modules]) *)
Definition check_missing_modules (asn1_modules : list string) (b : bundle)
  : result unit :=
  assert (is_nil (set_diff (module_names b) asn1_modules)
          && is_nil (set_diff asn1_modules (module_names b))) ConsistencyError.

Definition count (s : string) (l : list string) : nat :=
  List.length (filter (String.eqb s) l).

(** asn1_bundle_builder.py 163-218 ([_validate_unique_module_names]) *)
Definition duplicates (l : list string) : list string :=
  filter (fun n => Nat.ltb 1 (count n l)) l.
Definition validate_unique_module_names (ms : list module) (asn1_modules : list string)
  : result unit :=
  assert (is_nil (duplicates (map mod_name ms)) && is_nil (duplicates asn1_modules))
         ConsistencyError.

(** asn1_bundle_builder.py 49-59, 74-98: cfs, c and binary. *)
Definition build_from_config (asn1_modules : list string) (input : list module)
  : result bundle :=
  let* ms := parse_modules input in
  let* _ := validate_unique_module_names ms asn1_modules in
  let* b := build ms in
  let* _ := validate_bundle b in
  let* _ := check_missing_modules asn1_modules b in
  Ok b.

(** asn1_bundle_builder.py 61-72, 100-111: cosmos and plain texts. *)
Definition build_from_cosmos_config (input : list module) : result bundle :=
  let* ms := parse_modules input in
  let* b := build ms in
  let* _ := validate_bundle b in
  Ok b.

(** asn1_bundle.py 16-21 ([get_module]) *)
Definition get_module (b : bundle) (n : string) : result (option bmodule) :=
  if is_nil (b_modules b) then Err AssertionErr
  else Ok (find (fun bm => String.eqb (bm_name bm) n) (b_modules b)).
