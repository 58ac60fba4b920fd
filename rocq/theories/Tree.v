(** * The program on a directory tree

    main.py 27-83 once more, with the files in a tree of folders and with the
    creation of the output folder: parser.py 79-90, cfs/generator.py 53-55,
    c/generator.py 35-36, binary/generator.py 80-81, cosmos/generator.py
    103-116, c_printer.py 76-80, 151-155, 175-178.  Links, permissions, limits
    of names and space, and other processes are not modelled. *)
From Verif Require Import Base PyNum PyStr Ast Grammar Size Processor Bundle Sorter
  CCommon GenCfs GenC GenBinary GenCosmos Main Source Cli.
Open Scope string_scope.

(** ** The tree *)
Inductive node : Set :=
| File (contents : string)
| Dir (entries : list (string * node)).

Fixpoint entry_get (x : string) (es : list (string * node)) : option node :=
  match es with
  | [] => None
  | (y, n) :: r => if String.eqb y x then Some n else entry_get x r
  end.
Fixpoint entry_set (x : string) (n : node) (es : list (string * node)) : list (string * node) :=
  match es with
  | [] => [(x, n)]
  | (y, m) :: r => if String.eqb y x then (y, n) :: r else (y, m) :: entry_set x n r
  end.

(** A place in the tree: the names from the root on. *)
Definition place_t := list string.

Fixpoint lookup (t : node) (l : place_t) : option node :=
  match l with
  | [] => Some t
  | x :: r =>
      match t with
      | File _ => None
      | Dir es => match entry_get x es with Some n => lookup n r | None => None end
      end
  end.
(** Replaces or adds the node at [l]; its folder has to exist. *)
Fixpoint put (l : place_t) (n t : node) : node :=
  match l with
  | [] => n
  | x :: r =>
      match t with
      | File _ => t                                    (* does not occur *)
      | Dir es => Dir (entry_set x (put r n (match entry_get x es with Some m => m | None => Dir [] end)) es)
      end
  end.

(** ** Paths *)

Inductive oserror : Set := FileNotFound | NotADirectory | FileExists | IsADirectory.

(** The names of a path. *)
Fixpoint split_slash (s : string) : list string :=
  match s with
  | EmptyString => [""]
  | String c r =>
      if Ascii.eqb c "/" then "" :: split_slash r
      else match split_slash r with
           | [] => [String c ""]                       (* does not occur *)
           | w :: ws => String c w :: ws
           end
  end.
Definition origin (cwd : place_t) (path : string) : place_t := if startswith "/" path then [] else cwd.
Definition next (l : place_t) (p : string) : place_t :=
  if String.eqb p "" || String.eqb p "." then l
  else if String.eqb p ".." then removelast l
  else (l ++ [p])%list.

(** The kernel's path walk (path_resolution(7)): every name is looked up in a
    folder.  The place itself need not exist. *)
Fixpoint walk (t : node) (l : place_t) (ps : list string) : place_t + oserror :=
  match ps with
  | [] => inl l
  | p :: r =>
      match lookup t l with
      | Some (Dir _) => walk t (next l p) r
      | Some (File _) => inr NotADirectory
      | None => inr FileNotFound
      end
  end.

(** os.path.exists: no path is empty *)
Definition path_exists (t : node) (cwd : place_t) (path : string) : bool :=
  negb (String.eqb path "") &&
  match walk t (origin cwd path) (split_slash path) with
  | inl l => match lookup t l with Some _ => true | None => false end
  | inr _ => false
  end.
(** os.path.isdir, on names *)
Definition is_dir (t : node) (l : place_t) (ps : list string) : bool :=
  match walk t l ps with
  | inl l' => match lookup t l' with Some (Dir _) => true | _ => false end
  | inr _ => false
  end.

(** ** Creating folders *)

(** os.mkdir (mkdir(2)) of a path without empty names and "." *)
Definition os_mkdir (t : node) (l : place_t) (ps : list string) : node * option oserror :=
  match ps with
  | [] => (t, Some FileExists)
  | _ =>
      match walk t l (removelast ps) with
      | inr e => (t, Some e)
      | inl l' =>
          match lookup t l' with
          | None => (t, Some FileNotFound)
          | Some (File _) => (t, Some NotADirectory)
          | Some (Dir _) =>
              if String.eqb (last ps "") ".." then (t, Some FileExists)
              else match lookup t (next l' (last ps "")) with
                   | Some _ => (t, Some FileExists)
                   | None => (put (next l' (last ps "")) (Dir []) t, None)
                   end
          end
      end
  end.
(** pathlib.Path.mkdir(parents=True, exist_ok=True), CPython 3.6
    Lib/pathlib.py 1241-1256.  [n] is the number of names; the second call is
    with parents=False. *)
Fixpoint path_mkdir (n : nat) (t : node) (l : place_t) (ps : list string) : node * option oserror :=
  match os_mkdir t l ps with
  | (t1, None) => (t1, None)
  | (_, Some FileNotFound) =>
      match n with
      | O => (t, Some FileNotFound)
      | S n' =>
          match path_mkdir n' t l (removelast ps) with
          | (t1, Some e) => (t1, Some e)
          | (t1, None) =>
              match os_mkdir t1 l ps with
              | (t2, None) => (t2, None)
              | (_, Some FileNotFound) => (t1, Some FileNotFound)
              | (_, Some e) => if is_dir t1 l ps then (t1, None) else (t1, Some e)
              end
          end
      end
  | (_, Some e) => if is_dir t l ps then (t, None) else (t, Some e)
  end.
(** pathlib.Path drops empty names and ".". *)
Definition parts (path : string) : list string :=
  filter (fun p => negb (String.eqb p "" || String.eqb p ".")) (split_slash path).
(** [if not os.path.isdir(f): pathlib.Path(f).mkdir(...)] *)
Definition make_folder (t : node) (cwd : place_t) (path : string) : node * option oserror :=
  if negb (String.eqb path "") && is_dir t (origin cwd path) (split_slash path) then (t, None)
  else path_mkdir (length (parts path)) t (origin cwd path) (parts path).

(** os.path.dirname (posixpath) *)
Fixpoint has_slash (s : string) : bool :=
  match s with
  | "" => false
  | String c r => Ascii.eqb c "/" || has_slash r
  end.
Fixpoint up_to_slash (s : string) : string :=
  match s with
  | "" => ""
  | String c r => if has_slash r then String c (up_to_slash r) else if Ascii.eqb c "/" then "/" else ""
  end.
Fixpoint rstrip_slash (s : string) : string :=
  match s with
  | "" => ""
  | String c r =>
      match rstrip_slash r with
      | "" => if Ascii.eqb c "/" then "" else String c ""
      | r' => String c r'
      end
  end.
Definition dirname (path : string) : string :=
  let head := up_to_slash path in
  match rstrip_slash head with "" => head | h => h end.

(** ** Files *)

(** The bytes of the file opened with [open(path, "r")] *)
Definition read_path (t : node) (cwd : place_t) (path : string) : string + oserror :=
  match walk t (origin cwd path) (split_slash path) with
  | inr e => inr e
  | inl l =>
      match lookup t l with
      | Some (File c) => inl c
      | Some (Dir _) => inr IsADirectory
      | None => inr FileNotFound
      end
  end.
(** [open(path, "w")] or [open(path, "a")], and writing *)
Definition write_path (app : bool) (t : node) (cwd : place_t) (path contents : string)
  : node * option oserror :=
  match walk t (origin cwd path) (split_slash path) with
  | inr e => (t, Some e)
  | inl l =>
      match lookup t l with
      | Some (Dir _) => (t, Some IsADirectory)
      | Some (File old) => (put l (File (if app then old ++ contents else contents)) t, None)
      | None => (put l (File contents) t, None)
      end
  end.

(** ** The program *)

(** How a run ends: [Reported]: main.py 51-56 etc., an inconsistent bundle is
    reported with a message.  The other exceptions are not caught. *)
Inductive ending : Set :=
| Finished
| Reported
| Raised (e : error)
| OsRaised (e : oserror)
| Hangs.
Definition ending_of (r : result unit) : ending :=
  match r with Ok _ => Finished | Err e => Raised e | OutOfFuel => Hangs end.

(** parser.py 79-90 *)
Fixpoint read_inputs (t : node) (cwd : place_t) (paths : list string) : list string + ending :=
  match paths with
  | [] => inl []
  | p :: r =>
      if path_exists t cwd p then
        match read_path t cwd p with
        | inr e => inr (OsRaised e)
        | inl f =>
            match decode_file f with
            | None => inr (Raised UnicodeDecodeErr)
            | Some s => match read_inputs t cwd r with inl l => inl (s :: l) | inr e => inr e end
            end
        end
      else inr (Raised AssertionErr)
  end.

(** The files of a generator, written one after the other; a failure to write
    ends the run. *)
Fixpoint write_files (t : node) (cwd : place_t) (dir : string) (l : list file) : node * option oserror :=
  match l with
  | [] => (t, None)
  | f :: r =>
      match write_path false t cwd (os_path_join dir (fst f)) (snd f) with
      | (t1, None) => write_files t1 cwd dir r
      | (t1, Some e) => (t1, Some e)
      end
  end.
(** generate_cfs, generate_c, generate_binary: the folder, then the files. *)
Definition into_folder (t : node) (cwd : place_t) (dir : string) (o : outcome) : node * ending :=
  match make_folder t cwd dir with
  | (t1, Some e) => (t1, OsRaised e)
  | (t1, None) =>
      match write_files t1 cwd dir (fst o) with
      | (t2, Some e) => (t2, OsRaised e)
      | (t2, None) => (t2, ending_of (snd o))
      end
  end.
(** generate_cosmos: cosmos/generator.py 103-116 *)
Definition into_file (t : node) (cwd : place_t) (dir : string) (f : file) : node * ending :=
  let path := os_path_join dir (fst f) in
  match make_folder t cwd (dirname path) with
  | (t1, Some e) => (t1, OsRaised e)
  | (t1, None) =>
      match write_path true t1 cwd path (snd f) with
      | (t2, Some e) => (t2, OsRaised e)
      | (t2, None) => (t2, Finished)
      end
  end.

(** main.py 36-83: cfs, c and binary catch the exceptions of class
    ASN1ConsistencyError of the bundle builder, which also parses. *)
Definition caught (e : error) : ending :=
  match e with ConsistencyError => Reported | _ => Raised e end.
Definition rejection (c : command) (e : error) : ending :=
  match c with GenerateCosmos _ _ _ => Raised e | _ => caught e end.
Definition on_bundle (t : node) (r : result bundle) (f : bundle -> node * ending) : node * ending :=
  match r with
  | Ok b => f b
  | Err e => (t, caught e)
  | OutOfFuel => (t, Hangs)
  end.
Definition run_in (fuel : nat) (t : node) (cwd : place_t) (c : command) (dir : string) (input : list module)
  : node * ending :=
  match c with
  | GenerateCosmos m msgs target =>
      match build_from_cosmos_config input with
      | Ok b =>
          match generate_cosmos fuel b m msgs target with
          | Ok f => into_file t cwd dir f
          | Err e => (t, Raised e)
          | OutOfFuel => (t, Hangs)
          end
      | Err e => (t, Raised e)
      | OutOfFuel => (t, Hangs)
      end
  | GenerateCfs ms => on_bundle t (build_from_config ms input) (fun b => into_folder t cwd dir (generate_cfs fuel b))
  | GenerateC ms => on_bundle t (build_from_config ms input) (fun b => into_folder t cwd dir (generate_c fuel b))
  | GenerateBinary ms e =>
      on_bundle t (build_from_config ms input) (fun b => into_folder t cwd dir (generate_binary fuel e b))
  end.
(** None: argparse ended the process. *)
Definition start_in (fuel : nat) (cwd : place_t) (words : list string) (t : node) : node * option ending :=
  match parse_args words with
  | None => (t, None)
  | Some (a, dir) =>
      match read_inputs t cwd (input_paths a) with
      | inr e => (t, Some e)
      | inl texts =>
          let '(t', e) := on_modules texts (fun e => (t, rejection (command_of a) e))
                            (fun ms => run_in fuel t cwd (command_of a) dir ms) in
          (t', Some e)
      end
  end.
