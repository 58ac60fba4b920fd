(** * Specification of command lines *)
From Verif Require Import Base PyStr Ast GenBinary Main Source Spec_Grammar Cli.
Open Scope string_scope.

Definition prefix_of (p s : string) : Prop := exists r, s = p ++ r.
Definition no_equals (s : string) : Prop := all_chars (fun c => negb (Ascii.eqb c "=")) s = true.
Definition digits (s : string) : Prop := all_chars is_digit s = true.

(** -3, -0.5 or -.5, possibly followed by a newline *)
Definition negative (w : string) : Prop := exists d e, digits d /\ d <> "" /\ (e = "" \/ e = String LF "") /\
  (w = "-" ++ d ++ e \/ exists i, digits i /\ w = "-" ++ i ++ "." ++ d ++ e).

(** [p] stands for the option [o]: it is [o], or it starts with "--" and is
    the beginning of [o] and of no other option. *)
Definition names_option (opts : list string) (p o : string) : Prop :=
  In o opts /\
  (p = o \/ ~ In p opts /\ prefix_of "--" p /\ prefix_of p o
            /\ forall o', In o' opts -> prefix_of p o' -> o' = o).

(** The word [w] is an argument: it does not start with a dash, it is a
    single dash, or it is a negative number or contains a space and cannot be
    read as an option. *)
Definition argument (opts : list string) (w : string) : Prop :=
  ~ prefix_of "-" w \/ w = "-" \/
  ((negative w \/ exists a b, w = a ++ " " ++ b)
   /\ ~ prefix_of "-h" w
   /\ forall p o, prefix_of "--" w -> no_equals p -> (w = p \/ exists v, w = p ++ "=" ++ v) ->
        In o opts -> ~ prefix_of p o).

(** Options with their values: "--option value" or "--option=value". *)
Inductive option_words (opts : list string) : list string -> list (string * string) -> Prop :=
| ow_none : option_words opts [] []
| ow_separate : forall p o v r vals, names_option opts p o -> o <> "-h" -> o <> "--help" -> argument opts v ->
    option_words opts r vals -> option_words opts (p :: v :: r) ((o, v) :: vals)
| ow_joined : forall p o v r vals, names_option opts p o -> o <> "-h" -> o <> "--help" -> no_equals p ->
    v <> "--" -> option_words opts r vals -> option_words opts ((p ++ "=" ++ v) :: r) ((o, v) :: vals).

(** The words behind the name of the command: options, the paths in one
    piece, options; or options and the paths, with "--" before, among or
    behind the paths. *)
Definition line (opts : list string) (ws paths : list string) (vals : list (string * string)) : Prop :=
  paths <> [] /\
  ((exists w1 w2 v1 v2, ws = w1 ++ paths ++ w2 /\ vals = v1 ++ v2 /\ Forall (argument opts) paths
      /\ option_words opts w1 v1 /\ option_words opts w2 v2)
   \/ (exists w1 a b, ws = w1 ++ a ++ "--" :: b /\ paths = a ++ b /\ Forall (argument opts) a
      /\ option_words opts w1 vals))%list.

(** [v] is the value of the last occurrence of [o]. *)
Definition given (vals : list (string * string)) (o v : string) : Prop :=
  exists a b, (vals = a ++ (o, v) :: b)%list /\ forall v', ~ In (o, v') b.
Definition not_given (vals : list (string * string)) (o : string) : Prop := forall v, ~ In (o, v) vals.
Definition given_or (vals : list (string * string)) (o d v : string) : Prop :=
  given vals o v \/ (not_given vals o /\ v = d).

Definition help_options : list string := ["-h"; "--help"].

(** The accepted command lines, what they ask for and the output folder. *)
Inductive command_line : list string -> arguments -> string -> Prop :=
| cl_cosmos : forall ws paths vals m msgs out dir,
    line (help_options ++ ["--asn1-module"; "--asn1-messages"; "--output-file-name"; "--output-dir"]) ws paths vals ->
    given vals "--asn1-module" m -> given vals "--asn1-messages" msgs -> given vals "--output-file-name" out ->
    given_or vals "--output-dir" "output/cosmos" dir ->
    command_line ("generate-cosmos" :: ws) (ArgsCosmos paths m msgs out) dir
| cl_cfs : forall ws paths vals ms dir,
    line (help_options ++ ["--asn1-modules"; "--output-dir"]) ws paths vals ->
    given vals "--asn1-modules" ms -> given_or vals "--output-dir" "output/cfs" dir ->
    command_line ("generate-cfs" :: ws) (ArgsCfs paths ms) dir
| cl_c : forall ws paths vals ms dir,
    line (help_options ++ ["--asn1-modules"; "--output-dir"]) ws paths vals ->
    given vals "--asn1-modules" ms -> given_or vals "--output-dir" "output/c" dir ->
    command_line ("generate-c" :: ws) (ArgsC paths ms) dir
| cl_binary : forall ws paths vals ms dir e,
    line (help_options ++ ["--asn1-modules"; "--output-dir"; "--endianness"]) ws paths vals ->
    given vals "--asn1-modules" ms -> given_or vals "--output-dir" "output/binary" dir ->
    (forall v, In ("--endianness", v) vals -> v = "little-endian" \/ v = "big-endian") ->
    (e = Some LittleEndian /\ given vals "--endianness" "little-endian"
     \/ e = Some BigEndian /\ given vals "--endianness" "big-endian"
     \/ e = None /\ not_given vals "--endianness") ->
    command_line ("generate-binary" :: ws) (ArgsBinary paths ms e) dir.

(** "--option=--": argparse drops the second "--" and sets the option to an
    empty list. *)
Definition drops_value (w : string) : Prop := exists p, no_equals p /\ prefix_of "--" p /\ w = p ++ "=--".

(** [q] is the path of the file [n] in the folder [dir]. *)
Definition in_folder (dir n q : string) : Prop :=
  (dir = "" \/ exists d, dir = d ++ "/") /\ q = dir ++ n
  \/ dir <> "" /\ (forall d, dir <> d ++ "/") /\ q = dir ++ "/" ++ n.
