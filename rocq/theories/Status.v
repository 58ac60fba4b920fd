(** * How the process ends: argparse's exit codes and those of main.py

    Lib/argparse.py of CPython 3.6.15: [parse_known_args], [consume_optional]
    and the [error] and [exit] methods. *)
From Coq Require Import NArith.
From Verif Require Import Base PyNum PyStr Ast Main Cli Tree.
Open Scope string_scope.

(** [Help]: the help text is printed, exit code 0.  [Wrong]: ArgumentParser.error
    prints the usage and a message, exit code 2.  [Crash]: an exception of
    argparse itself. *)
Inductive stop : Set := Help | Wrong | Crash.

Fixpoint all_h (s : string) : bool :=
  match s with "" => true | String c r => Ascii.eqb c "h" && all_h r end.

(** [consume_optional] of an option that takes no value.  A value of "-h" is
    read as further one-letter options: [explicit_arg[0]] of an empty value
    raises IndexError, and a letter other than h is an error, before any help
    text is printed.  "--help=..." is an error. *)
Definition help_stop (o : string) (ex : option string) : stop :=
  match ex with
  | None => Help
  | Some v =>
      if String.eqb o "-h" then
        if String.eqb v "" then Crash else if all_h v then Help else Wrong
      else Wrong
  end.

(** [_check_value]: only --endianness has choices. *)
Definition choice_ok (o v : string) : bool :=
  negb (String.eqb o "--endianness") || match endianness_of v with Some _ => true | None => false end.

(** The words of a command one after the other, see [consume]; None: the last
    word is reached, or "--", behind which there are no options.  Arguments and
    unknown options are set aside.  A value "--" behind an equals sign is not
    modelled, as in [consume]. *)
Fixpoint scan (opts : list string) (ws : list string) : option stop :=
  match ws with
  | [] => None
  | w :: r =>
      if String.eqb w "--" then None
      else
        match classify opts w with
        | None => Some Wrong
        | Some (WOpt o ex) =>
            if is_help o then Some (help_stop o ex)
            else
              match ex with
              | Some v => if negb (String.eqb v "--") && choice_ok o v then scan opts r else Some Wrong
              | None =>
                  match r with
                  | [] => Some Wrong
                  | v :: r' =>
                      if String.eqb v "--" then Some Wrong
                      else match classify opts v with
                           | Some WArg => if choice_ok o v then scan opts r' else Some Wrong
                           | _ => Some Wrong
                           end
                  end
              end
        | _ => scan opts r
        end
  end.

(** All words in front of "--" are classified before any is consumed. *)
Fixpoint some_ambiguous (opts : list string) (ws : list string) : bool :=
  match ws with
  | [] => false
  | w :: r =>
      if String.eqb w "--" then false
      else match classify opts w with None => true | Some _ => some_ambiguous opts r end
  end.
Definition command_stop (c : cname) (ws : list string) : stop :=
  if some_ambiguous (options_of c) ws then Wrong
  else match scan (options_of c) ws with Some s => s | None => Wrong end.

(** The main parser has the help options and the commands; it sets unknown
    options in front of the command aside and ends with an error after the
    command was parsed.  "--" is taken for the name of the command.  The
    command is required, cli_arg_parser.py 18.  No word is ambiguous. *)
Fixpoint argparse_stop (words : list string) : stop :=
  match words with
  | [] => Wrong
  | w :: r =>
      if String.eqb w "--" then Wrong
      else
        match classify ["-h"; "--help"] w with
        | Some (WOpt o ex) => help_stop o ex
        | Some WUnknown => argparse_stop r
        | Some WArg => match command_named w with Some c => command_stop c r | None => Wrong end
        | None => Wrong
        end
  end.

(** The exit code of the process: main.py 58, 69, 80 for what is reported, 1
    for an uncaught exception, 0 when main returns.  None: the process does
    not end. *)
Definition exit_code (fuel : nat) (cwd : place_t) (words : list string) (t : node) : option N :=
  match snd (start_in fuel cwd words t) with
  | None => Some (match argparse_stop words with Help => 0 | Wrong => 2 | Crash => 1 end)%N
  | Some Finished => Some 0%N
  | Some Hangs => None
  | Some _ => Some 1%N
  end.
