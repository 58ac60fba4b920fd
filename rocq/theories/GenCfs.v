(** * cFS generator: generators/cfs/generator.py *)
From Verif Require Import Base PyNum PyStr Ast Size Processor Bundle Sorter CCommon.
Open Scope string_scope.

(** 25-30 *)
Definition KEY_PRIMARY := "primary".
Definition KEY_VERSION := "packet-version-number".
Definition KEY_IDENT := "packet-identification".
Definition KEY_TYPE := "packet-type-is-cmd".
Definition KEY_SEC_HEADER_FLAG := "sec-hdr-flag-is-present".
Definition KEY_APID := "application-process-identifier".

(** 36-47 *)
Definition msg_filename (module_name : string) : string := c_name module_name ++ "_msg".
Definition msgids_filename (module_name : string) : string := c_name module_name ++ "_msgids".

(** A value as an operand of [<<]: bool is an int, everything else but int is
    a TypeError. *)
Definition as_int (v : wval) : result Z :=
  match v with
  | VInt z => Ok z
  | VBool b => Ok (if b then 1 else 0)%Z
  | VFloat _ | VWith _ => Err TypeErr
  end.

(** 176-211: the components of packet-identification. *)
Fixpoint ident_msg_id (l : list witem) (id : Z) : result Z :=
  match l with
  | [] => Ok id
  | WI k v _ :: r =>
      let* id :=
        if String.eqb k KEY_VERSION then
          let* z := as_int v in Ok (Z.lor id (Z.shiftl z (16 - 3)))
        else if String.eqb k KEY_TYPE then
          let* z := as_int v in Ok (Z.lor id (Z.shiftl z (16 - 3 - 1)))
        else if String.eqb k KEY_SEC_HEADER_FLAG then
          let* z := as_int v in Ok (Z.lor id (Z.shiftl z (16 - 3 - 1 - 1)))
        else if String.eqb k KEY_APID then
          let* z := as_int v in Ok (Z.lor id (Z.shiftl z (16 - 3 - 1 - 1 - 11)))
        else Err GenericException in
      ident_msg_id r id
  end.

(** 169-215 ([_ccsds_primary_header_to_msg_id]) *)
Fixpoint primary_msg_id (l : list witem) (id : Z) : result Z :=
  match l with
  | [] => Ok id
  | WI k v _ :: r =>
      let* id :=
        if String.eqb k KEY_IDENT then
          match v with
          | VWith w => ident_msg_id (wc_items w) id
          | _ => Err AttributeErr                      (* value.get_components() *)
          end
        else Err GenericException in
      primary_msg_id r id
  end.

(** 241-253: [str(value)] of a leaf, booleans as true/false. *)
Definition leaf_value (v : wval) : string :=
  match v with
  | VInt z => str_of_Z z
  | VFloat f => frepr f
  | VBool b => if b then "true" else "false"
  | VWith _ => ""                                      (* not reached *)
  end.

(** 217-258 ([_process_with_components]) *)
Fixpoint cfs_defines (seq_name : string) (w : wcomps) : result (list cdefine) :=
  match w with
  | WC _ l =>
      (fix go (l : list witem) : result (list cdefine) :=
         match l with
         | [] => Ok []
         | WI k v _ :: r =>
             let* ds :=
               match v with
               | VWith w' =>
                   if String.eqb k KEY_PRIMARY then
                     let* id := primary_msg_id (wc_items w') 0 in
                     Ok [mkdefine (upper seq_name ++ "_MID")
                                  ("(0x" ++ format_X 4 id ++ ")") false]
                   else cfs_defines seq_name w'
               | _ =>
                   Ok [mkdefine (upper (seq_name ++ "_" ++ c_name k))
                                ("(" ++ leaf_value v ++ ")") true]
               end in
             let* rest := go r in
             Ok (ds ++ rest)%list
         end) l
  end.

(** 260-277 ([_with_components_handling]); only called with a clause. *)
Definition cfs_with_components (name_c : string) (m : member) : result cdata :=
  match m_with m with
  | None => Ok empty_cdata
  | Some w =>
      let* ds := cfs_defines name_c w in
      Ok (mkcdata [] ds [] [] [] "" false false "" [])
  end.

(** [sorted(set of names)] *)
Fixpoint insert_sorted (s : string) (l : list string) : list string :=
  match l with
  | [] => [s]
  | x :: r => if String.leb s x then s :: l else x :: insert_sorted s r
  end.
Definition sort_names (l : list string) : list string := fold_right insert_sorted [] l.

(** 103-124: the note for a SimpleDefinition that is used somewhere. *)
Definition cfs_note (b : bundle) (n : string) (t : asn_type) : result (option string) :=
  match find (fun kv => String.eqb (fst kv) n) (b_uses b) with
  | None => Ok None
  | Some (_, users) =>
      let* s := simple_size t in
      Ok (Some ("// NOTE: The simple type '" ++ n ++ "' has been generated to a C "
                ++ (if existsb (Z.eqb s) [8; 16; 32; 64]%Z then "builtin" else "bitfield")
                ++ " type and is used directly in "
                ++ join ", " (map (fun u => "'" ++ u ++ "'") (sort_names users))))
  end.

Definition cfs_cdata (fuel : nat) (b : bundle) (bm : bmodule) : result cdata :=
  module_cdata fuel b bm (fun n => msg_filename n ++ ".h") (cfs_note b)
               cfs_with_components.

(** 59-167: the files of one module. *)
Definition cfs_module (fuel : nat) (b : bundle) (bm : bmodule) : result (list file) :=
  let* c := cfs_cdata fuel b bm in
  Ok (print_to_file c (msg_filename (bm_name bm)) MSG
      ++ print_to_file c (msgids_filename (bm_name bm)) MSGIDS)%list.

(** 49-167 *)
Definition generate_cfs (fuel : nat) (b : bundle) : outcome :=
  generate_modules fuel b (cfs_module fuel b).
