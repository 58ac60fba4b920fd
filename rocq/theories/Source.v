(** * From the command line and the input files to the output folder

    cli/cli_arg_parser.py, asn1/parser.py 79-117, main.py 36-83.  [argparse]
    itself is not modelled: [arguments] holds the option values as typed.
    The input files are a map from paths to texts. *)
From Verif Require Import Base PyNum PyStr Ast Grammar Size Processor Bundle Sorter
  CCommon GenCfs GenC GenBinary GenCosmos Main.
Open Scope string_scope.

(** parser.py 92-105: the text of one module; textX raises
    TextXSyntaxError. *)
Definition read_text (text : string) : result module :=
  match read_module text with
  | Some m => Ok m
  | None => Err TextXSyntaxError
  end.
Definition parse_text (text : string) : result module :=
  let* m := read_text text in parse_module m.
(** parser.py 92-105 with is_multimodule=False *)
Definition parse_single_text (text : string) : result module :=
  let* m := read_text text in parse_single m.
(** parser.py 107-117 *)
Definition parse_texts (texts : list string) : result (list module) :=
  map_result parse_text texts.

(** asn1_bundle_builder.py 100-111 ([build_from_texts]).  The texts are read
    and processed one after the other; [parse_texts] determines the error when
    one of them cannot be read. *)
Definition on_modules {A} (texts : list string) (bad : error -> A) (good : list module -> A) : A :=
  match map_result read_text texts with
  | Ok ms => good ms
  | Err e => bad (match parse_texts texts with Err e' => e' | _ => e end)
  | OutOfFuel => bad TextXSyntaxError                 (* does not occur *)
  end.
Definition build_from_texts (texts : list string) : result bundle :=
  on_modules texts Err build_from_cosmos_config.

(** main.py 36-83, from the texts on. *)
Definition run_texts (fuel : nat) (c : command) (texts : list string) (fs : folder)
  : folder * result unit :=
  on_modules texts (fun e => (fs, Err e)) (fun ms => run fuel c ms fs).

(** parser.py 87: files are opened in text mode, so [read] turns "\r\n" and
    "\r" into "\n" (io.TextIOWrapper with newline=None). *)
Definition CR : ascii := "013"%char.
Fixpoint universal_newlines (s : string) : string :=
  match s with
  | EmptyString => EmptyString
  | String c r =>
      if Ascii.eqb c CR then
        String LF (match r with
                   | String d r' => if Ascii.eqb d LF then universal_newlines r' else universal_newlines r
                   | EmptyString => EmptyString
                   end)
      else String c (universal_newlines r)
  end.

(** parser.py 87: encoding="utf8", errors are strict. *)
Definition byte_in (a b c : N) : bool := ((a <=? c) && (c <=? b))%N.
Definition continues (a : ascii) : bool := byte_in 128 191 (N_of_ascii a).
Fixpoint utf8_valid (s : string) : bool :=
  match s with
  | EmptyString => true
  | String a r =>
      let c := N_of_ascii a in
      if (c <? 128)%N then utf8_valid r
      else if (c <? 194)%N then false
      else if (c <? 224)%N then
        match r with String b r => continues b && utf8_valid r | _ => false end
      else if (c <? 240)%N then
        match r with
        | String b (String d r) =>
            byte_in (if (c =? 224)%N then 160 else 128) (if (c =? 237)%N then 159 else 191) (N_of_ascii b)
            && continues d && utf8_valid r
        | _ => false
        end
      else if (c <? 245)%N then
        match r with
        | String b (String d (String e r)) =>
            byte_in (if (c =? 240)%N then 144 else 128) (if (c =? 244)%N then 143 else 191) (N_of_ascii b)
            && continues d && continues e && utf8_valid r
        | _ => false
        end
      else false
  end.
(** parser.py 88: the text of a file; [None]: UnicodeDecodeError. *)
Definition decode_file (f : string) : option string :=
  if utf8_valid f then Some (universal_newlines f) else None.

(** parser.py 79-90: all files are read before the first is parsed; a missing
    file is an assertion error. *)
Definition disk := list (string * string).
Definition read_files (d : disk) (paths : list string) : result (list string) :=
  map_result (fun p => match folder_get d p with
                       | Some f => match decode_file f with
                                   | Some t => Ok t
                                   | None => Err UnicodeDecodeErr
                                   end
                       | None => Err AssertionErr
                       end) paths.

(** cli_arg_parser.py 5-7: [str.split(",")] *)
Fixpoint split_commas (s : string) : list string :=
  match s with
  | EmptyString => [""]
  | String c r =>
      if Ascii.eqb c "," then "" :: split_commas r
      else match split_commas r with
           | [] => [String c ""]                     (* does not occur *)
           | w :: ws => String c w :: ws
           end
  end.

(** cli_arg_parser.py 10-152: the values of the options (without
    --output-dir, which selects the folder). *)
Inductive arguments : Set :=
| ArgsCosmos (input_paths : list string) (asn1_module asn1_messages output_file_name : string)
| ArgsCfs (input_paths : list string) (asn1_modules : string)
| ArgsC (input_paths : list string) (asn1_modules : string)
| ArgsBinary (input_paths : list string) (asn1_modules : string) (e : option endianness).

(** cli_arg_parser.py 221-277 *)
Definition input_paths (a : arguments) : list string :=
  match a with
  | ArgsCosmos p _ _ _ | ArgsCfs p _ | ArgsC p _ | ArgsBinary p _ _ => p
  end.
Definition command_of (a : arguments) : command :=
  match a with
  | ArgsCosmos _ m msgs out => GenerateCosmos m (split_commas msgs) out
  | ArgsCfs _ ms => GenerateCfs (split_commas ms)
  | ArgsC _ ms => GenerateC (split_commas ms)
  | ArgsBinary _ ms e => GenerateBinary (split_commas ms) e
  end.

(** main.py 36-83 *)
Definition main (fuel : nat) (a : arguments) (d : disk) (fs : folder) : folder * result unit :=
  match read_files d (input_paths a) with
  | Ok texts => run_texts fuel (command_of a) texts fs
  | Err e => (fs, Err e)
  | OutOfFuel => (fs, OutOfFuel)                      (* does not occur *)
  end.
