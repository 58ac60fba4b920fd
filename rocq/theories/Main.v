(** * The command line tool: main.py, cli/cli_arg_parser.py

    A run starts here from the parsed modules, in the order of the input
    files; Source.v puts the reading of files and texts in front.  The output folder is a map from file names to contents;
    creating the folder itself (cfs/generator.py 53-55 etc.) is in
    Tree.v. *)
From Verif Require Import Base PyNum PyStr Ast Size Processor Bundle Sorter
  CCommon GenCfs GenC GenBinary GenCosmos.
Open Scope string_scope.

(** cli_arg_parser.py 10-152, 155-214: the commands and their options. *)
Inductive command : Set :=
| GenerateCosmos (asn1_module : string) (asn1_messages : list string)
                 (output_file_name : string)
| GenerateCfs (asn1_modules : list string)
| GenerateC (asn1_modules : list string)
| GenerateBinary (asn1_modules : list string) (e : option endianness).

(** The output folder. *)
Definition folder := list (string * string).
Fixpoint folder_get (fs : folder) (name : string) : option string :=
  match fs with
  | [] => None
  | (n, c) :: r => if String.eqb n name then Some c else folder_get r name
  end.
(** open(..., mode="w") and writing: c_printer.py 76-80, 151-155, 175-178. *)
Definition folder_write (f : file) (fs : folder) : folder := dict_set (fst f) (snd f) fs.
Definition folder_write_all (l : list file) (fs : folder) : folder :=
  fold_left (fun fs f => folder_write f fs) l fs.
(** open(..., mode="a") and writing: cosmos/generator.py 111-116. *)
Definition folder_append (f : file) (fs : folder) : folder :=
  match folder_get fs (fst f) with
  | Some old => dict_set (fst f) (old ++ snd f) fs
  | None => dict_set (fst f) (snd f) fs
  end.

Definition with_bundle (r : result bundle) (fs : folder) (f : bundle -> folder * result unit)
  : folder * result unit :=
  match r with
  | Ok b => f b
  | Err e => (fs, Err e)
  | OutOfFuel => (fs, OutOfFuel)
  end.

Definition write_outcome (fs : folder) (o : outcome) : folder * result unit :=
  (folder_write_all (fst o) fs, snd o).

(** main.py 36-83.  (cfs, c and binary turn a ConsistencyError of the bundle
    into a message and exit code 1, the other errors are uncaught; either way
    the run fails.) *)
Definition run (fuel : nat) (c : command) (input : list module) (fs : folder)
  : folder * result unit :=
  match c with
  | GenerateCosmos m msgs target =>
      with_bundle (build_from_cosmos_config input) fs
        (fun b => match generate_cosmos fuel b m msgs target with
                  | Ok f => (folder_append f fs, Ok tt)
                  | Err e => (fs, Err e)
                  | OutOfFuel => (fs, OutOfFuel)
                  end)
  | GenerateCfs ms =>
      with_bundle (build_from_config ms input) fs
        (fun b => write_outcome fs (generate_cfs fuel b))
  | GenerateC ms =>
      with_bundle (build_from_config ms input) fs
        (fun b => write_outcome fs (generate_c fuel b))
  | GenerateBinary ms e =>
      with_bundle (build_from_config ms input) fs
        (fun b => write_outcome fs (generate_binary fuel e b))
  end.
