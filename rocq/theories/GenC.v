(** * C generator: generators/c/generator.py *)
From Verif Require Import Base PyNum PyStr Ast Size Processor Bundle Sorter CCommon.
Open Scope string_scope.

(** 26-28 *)
Definition c_filename (module_name : string) : string := c_name module_name.

(** 201-208: [str(value)] of a leaf, booleans as 1/0. *)
Definition init_value (v : wval) : string :=
  match v with
  | VInt z => str_of_Z z
  | VFloat f => frepr f
  | VBool b => if b then "1" else "0"
  | VWith _ => ""                                      (* not reached *)
  end.

(** 174-212 ([_process_with_components]); the shift level is never negative. *)
Fixpoint init_components (level : nat) (w : wcomps) : string :=
  match w with
  | WC _ l =>
      (fix go (l : list witem) : string :=
         match l with
         | [] => ""
         | WI k v _ :: r =>
             (match v with
              | VWith w' =>
                  repeat_str level C_SPACES ++ "." ++ c_name k ++ " = {" ++ NL
                  ++ init_components (S level) w'
                  ++ repeat_str level C_SPACES ++ "}," ++ NL
              | _ =>
                  repeat_str level C_SPACES ++ "." ++ c_name k ++ " = "
                  ++ init_value v ++ "," ++ NL
              end) ++ go r
         end) l
  end.

(** 147-172 ([_process_start_with_component]) *)
Definition init_start (seq_name key : string) (w : wcomps) : string :=
  seq_name ++ " " ++ lowerize seq_name ++ " = {" ++ NL
  ++ repeat_str 1 C_SPACES ++ "." ++ c_name key ++ " = {" ++ NL
  ++ init_components 2 w
  ++ repeat_str 1 C_SPACES ++ "}," ++ NL
  ++ "};" ++ NL.

(** 120-145 ([_with_components_handling]) *)
Definition c_with_components (module_name : string) (name_c : string) (m : member)
  : result cdata :=
  match m_with m with
  | None => Ok empty_cdata
  | Some w =>
      Ok (mkcdata [] [] []
                  [init_start name_c (m_key m) w]
                  [name_c ++ " " ++ lowerize name_c ++ ";"]
                  (quoted_include (c_filename module_name ++ ".h"))
                  false false "" [])
  end.

(** 83-89 *)
Definition c_note (n : string) (t : asn_type) : result (option string) :=
  Ok (Some (NL ++ "// NOTE: " ++ n ++ " is embedded directly where it is used. "
            ++ "Rationale: Bitfields cannot be typedef'd.")).

Definition c_cdata (fuel : nat) (b : bundle) (bm : bmodule) : result cdata :=
  module_cdata fuel b bm c_filename c_note (c_with_components (bm_name bm)).

(** 40-118 *)
Definition c_module (fuel : nat) (b : bundle) (bm : bmodule) : result (list file) :=
  let* c := c_cdata fuel b bm in
  Ok (print_to_file c (c_filename (bm_name bm)) STORED_DATA).

(** 30-118 *)
Definition generate_c (fuel : nat) (b : bundle) : outcome :=
  generate_modules fuel b (c_module fuel b).
