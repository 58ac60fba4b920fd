(** * The command line: cli/cli_arg_parser.py on top of Python's argparse

    The command line is a list of words.  argparse (Lib/argparse.py, CPython
    3.6.15 as in /repo/.python-version) either sets the options of one of the
    commands or ends the process: exit code 2 with a message, or exit code 0
    after printing the help text.  The two are not told apart here, since
    nothing is read or written in either case; see Status.v. *)
From Verif Require Import Base PyNum PyStr Ast Grammar Size Processor Bundle Sorter
  CCommon GenCfs GenC GenBinary GenCosmos Main Source.
Open Scope string_scope.

(** ** argparse *)

(** [str.partition("=")]: the text before the first equals sign, and the text
    after it, if there is one. *)
Fixpoint partition_eq (s : string) : string * option string :=
  match s with
  | "" => ("", None)
  | String c r =>
      if Ascii.eqb c "=" then ("", Some r)
      else let '(a, b) := partition_eq r in (String c a, b)
  end.

(** [_negative_number_matcher]: '^-\d+$|^-\d*\.\d+$'.  A dollar sign also
    matches before a final newline. *)
Fixpoint digits_dot (dot some : bool) (s : string) : bool :=
  match s with
  | "" => some
  | String c r =>
      if is_digit c then digits_dot dot true r
      else if Ascii.eqb c "." && negb dot then digits_dot true false r
      else if Ascii.eqb c LF && some then String.eqb r ""
      else false
  end.
Definition negative_number (s : string) : bool :=
  match s with
  | String c r => Ascii.eqb c "-" && digits_dot false false r
  | "" => false
  end.

Fixpoint has_space (s : string) : bool :=
  match s with
  | "" => false
  | String c r => Ascii.eqb c " " || has_space r
  end.

(** What a word is taken for: an argument, an option of the parser, possibly
    with the value behind an equals sign, or an option the parser does not
    have. *)
Inductive wclass : Set :=
| WArg
| WOpt (o : string) (explicit : option string)
| WUnknown.

(** [_get_option_tuples] *)
Definition option_tuples (opts : list string) (w : string) : list (string * option string) :=
  if startswith "--" w then
    let '(p, ex) := partition_eq w in
    map (fun o => (o, ex)) (filter (startswith p) opts)
  else
    flat_map (fun o =>
      if String.eqb o (substring 0 2 w) then [(o, Some (substring 2 (String.length w) w))]
      else if startswith w o then [(o, None)] else []) opts.

(** [_parse_optional]; None: the word is ambiguous, argparse ends. *)
Definition classify (opts : list string) (w : string) : option wclass :=
  let further :=
    match option_tuples opts w with
    | [(o, ex)] => Some (WOpt o ex)
    | _ :: _ => None
    | [] => if negative_number w || has_space w then Some WArg else Some WUnknown
    end in
  match w with
  | "" => Some WArg
  | String c r =>
      if negb (Ascii.eqb c "-") then Some WArg
      else if mem w opts then Some (WOpt w None)
      else if String.eqb r "" then Some WArg
      else
        match partition_eq w with
        | (p, Some v) => if mem p opts then Some (WOpt p (Some v)) else further
        | _ => further
        end
  end.

(** [parse_known_args] of a parser with options that take one value each, the
    two help options, and one positional argument with nargs="+".  The words
    of the positional argument are taken from the first run of arguments;
    arguments after that are left over, which ends the process.  argparse
    classifies all words first; here each word is classified when its turn
    comes, which is the same since every word up to the first "--" has its
    turn unless the process ends.  Words after "--" are arguments; the "--" is
    dropped.  A value "--" behind an equals sign is also dropped by argparse,
    which then sets the option to an empty list; this is not modelled, the
    theorems exclude such words. *)
Inductive pstate : Set :=
| PNone                       (* no path yet *)
| POpen (paths : list string) (* in the run of paths *)
| PDone (paths : list string). (* the run is over *)

Definition close (st : pstate) : pstate :=
  match st with POpen l => PDone l | _ => st end.
Definition paths_of (st : pstate) : list string :=
  match st with PNone => [] | POpen l | PDone l => l end.
Definition is_help (o : string) : bool := String.eqb o "-h" || String.eqb o "--help".
Definition finish (paths : list string) (vals : list (string * string))
  : option (list string * list (string * string)) :=
  match paths with [] => None | _ => Some (paths, vals) end.

Fixpoint consume (opts : list string) (st : pstate) (vals : list (string * string)) (ws : list string)
  : option (list string * list (string * string)) :=
  match ws with
  | [] => finish (paths_of st) vals
  | w :: r =>
      if String.eqb w "--" then
        match st with
        | PDone _ => None
        | _ => finish (paths_of st ++ r)%list vals
        end
      else
        match classify opts w with
        | Some WArg =>
            match st with
            | PDone _ => None
            | _ => consume opts (POpen (paths_of st ++ [w])%list) vals r
            end
        | Some (WOpt o ex) =>
            if is_help o then None
            else
              match ex with
              | Some v =>
                  if String.eqb v "--" then None      (* not modelled *)
                  else consume opts (close st) (vals ++ [(o, v)])%list r
              | None =>
                  match r with
                  | v :: r' =>
                      if String.eqb v "--" then None
                      else match classify opts v with
                           | Some WArg => consume opts (close st) (vals ++ [(o, v)])%list r'
                           | _ => None
                           end
                  | [] => None
                  end
              end
        | _ => None
        end
  end.

(** The last occurrence of an option counts. *)
Fixpoint last_value (o : string) (vals : list (string * string)) : option string :=
  match vals with
  | [] => None
  | (o', v) :: r =>
      match last_value o r with
      | Some v' => Some v'
      | None => if String.eqb o' o then Some v else None
      end
  end.
Definition default (d : string) (v : option string) : string :=
  match v with Some s => s | None => d end.

(** ** The commands *)

(** cli_arg_parser.py 10-152: the commands and the options of each. *)
Inductive cname : Set := CosmosCmd | CfsCmd | CCmd | BinaryCmd.
Definition command_named (s : string) : option cname :=
  if String.eqb s "generate-cosmos" then Some CosmosCmd
  else if String.eqb s "generate-cfs" then Some CfsCmd
  else if String.eqb s "generate-c" then Some CCmd
  else if String.eqb s "generate-binary" then Some BinaryCmd
  else None.
Definition options_of (c : cname) : list string :=
  ["-h"; "--help"] ++
  match c with
  | CosmosCmd => ["--asn1-module"; "--asn1-messages"; "--output-file-name"; "--output-dir"]
  | CfsCmd | CCmd => ["--asn1-modules"; "--output-dir"]
  | BinaryCmd => ["--asn1-modules"; "--output-dir"; "--endianness"]
  end.
Definition default_dir (c : cname) : string :=
  match c with
  | CosmosCmd => "output/cosmos"
  | CfsCmd => "output/cfs"
  | CCmd => "output/c"
  | BinaryCmd => "output/binary"
  end.

(** 146-150: the choices of --endianness *)
Definition endianness_of (s : string) : option endianness :=
  if String.eqb s "little-endian" then Some LittleEndian
  else if String.eqb s "big-endian" then Some BigEndian
  else None.
(** The choice is checked at every occurrence. *)
Definition choices_ok (vals : list (string * string)) : bool :=
  forallb (fun x => negb (String.eqb (fst x) "--endianness")
                    || match endianness_of (snd x) with Some _ => true | None => false end) vals.

Definition arguments_of (c : cname) (paths : list string) (vals : list (string * string))
  : option arguments :=
  let v o := last_value o vals in
  match c with
  | CosmosCmd =>
      match v "--asn1-module", v "--asn1-messages", v "--output-file-name" with
      | Some m, Some msgs, Some out => Some (ArgsCosmos paths m msgs out)
      | _, _, _ => None
      end
  | CfsCmd => match v "--asn1-modules" with Some ms => Some (ArgsCfs paths ms) | None => None end
  | CCmd => match v "--asn1-modules" with Some ms => Some (ArgsC paths ms) | None => None end
  | BinaryCmd =>
      match v "--asn1-modules" with
      | Some ms =>
          if choices_ok vals then
            Some (ArgsBinary paths ms
                    (match v "--endianness" with Some e => endianness_of e | None => None end))
          else None
      | None => None
      end
  end.

(** cli_arg_parser.py 277-284: the options and the output folder.  The first
    word has to be the name of a command: an option in front of it is one of
    the help options or unknown, and "--" is not dropped here. *)
Definition parse_args (words : list string) : option (arguments * string) :=
  match words with
  | [] => None
  | w :: r =>
      match command_named w with
      | None => None
      | Some c =>
          match consume (options_of c) PNone [] r with
          | None => None
          | Some (paths, vals) =>
              match arguments_of c paths vals with
              | None => None
              | Some a => Some (a, default (default_dir c) (last_value "--output-dir" vals))
              end
          end
      end
  end.

(** ** The whole program *)

(** os.path.join (posixpath) with two arguments *)
Fixpoint ends_with_slash (s : string) : bool :=
  match s with
  | "" => false
  | String c "" => Ascii.eqb c "/"
  | String _ r => ends_with_slash r
  end.
Definition os_path_join (a b : string) : string :=
  if startswith "/" b then b
  else if String.eqb a "" || ends_with_slash a then a ++ b
  else a ++ "/" ++ b.

(** main.py 27-83 with the input and output files in one file system: the
    files the run produces are placed in the output folder, c_printer.py
    76-80, 151-155, 175-178 and cosmos/generator.py 103-116.  A file system is
    a map from paths as written; two spellings of a path ("a" and "./a") are
    two entries.  The run itself starts from an empty folder; that the earlier
    files have no influence on it is C43_cosmos_appends and
    C46_output_independent. *)
Definition is_cosmos (a : arguments) : bool :=
  match a with ArgsCosmos _ _ _ _ => true | _ => false end.
Definition place (a : arguments) (dir : string) (out : folder) (fsys : disk) : disk :=
  fold_left (fun s f => (if is_cosmos a then folder_append else folder_write)
                          (os_path_join dir (fst f), snd f) s) out fsys.
(** None: argparse ended the process. *)
Definition start (fuel : nat) (words : list string) (fsys : disk) : disk * option (result unit) :=
  match parse_args words with
  | None => (fsys, None)
  | Some (a, dir) =>
      let '(out, r) := main fuel a fsys [] in (place a dir out fsys, Some r)
  end.
