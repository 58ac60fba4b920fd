(** * Specification of the command lines that ask for help *)
From Verif Require Import Base PyStr Ast Main Source Spec_Grammar Cli Spec_Cli.
Open Scope string_scope.

(** ** One word, for a parser with the options [opts] *)

(** -h, -hh, -h=h, or --help and its abbreviations *)
Definition asks_help (opts : list string) (w : string) : Prop := w <> "--" /\
  (names_option opts w "--help"
   \/ exists hs, all_chars (fun c => Ascii.eqb c "h") hs = true /\ (w = "-h" ++ hs \/ hs <> "" /\ w = "-h=" ++ hs)).

(** -h with an empty value, which argparse fails on *)
Definition empty_value (opts : list string) (w : string) : Prop := w = "-h=".

(** Not an option and not an argument: the word starts with a dash and is not
    the beginning of an option. *)
Definition stray (opts : list string) (w : string) : Prop :=
  prefix_of "-" w /\ w <> "-" /\ w <> "--" /\ ~ negative w /\ (~ exists a b, w = a ++ " " ++ b)
  /\ ~ prefix_of "-h" w
  /\ forall p o, prefix_of "--" w -> no_equals p -> (w = p \/ exists v, w = p ++ "=" ++ v) ->
       In o opts -> ~ prefix_of p o.

(** The beginning of two options *)
Definition ambiguous (opts : list string) (w : string) : Prop := w <> "--" /\
  exists p o o', no_equals p /\ prefix_of "--" p /\ (w = p \/ exists v, w = p ++ "=" ++ v) /\ ~ In p opts
    /\ In o opts /\ In o' opts /\ o <> o' /\ prefix_of p o /\ prefix_of p o'.

(** ** Words that argparse reads without ending the process *)
Definition allowed (o v : string) : Prop := o = "--endianness" -> v = "little-endian" \/ v = "big-endian".
Inductive passes (opts : list string) : list string -> Prop :=
| pass_none : passes opts []
| pass_word : forall w r, argument opts w \/ stray opts w -> passes opts r -> passes opts (w :: r)
| pass_separate : forall p o v r, names_option opts p o -> o <> "-h" -> o <> "--help" -> argument opts v -> allowed o v ->
    passes opts r -> passes opts (p :: v :: r)
| pass_joined : forall p o v r, names_option opts p o -> o <> "-h" -> o <> "--help" -> no_equals p -> v <> "--" -> allowed o v ->
    passes opts r -> passes opts ((p ++ "=" ++ v) :: r).

(** ** The commands and their options *)
Inductive command_options : string -> list string -> Prop :=
| opts_cosmos : command_options "generate-cosmos"
    (help_options ++ ["--asn1-module"; "--asn1-messages"; "--output-file-name"; "--output-dir"])
| opts_cfs : command_options "generate-cfs" (help_options ++ ["--asn1-modules"; "--output-dir"])
| opts_c : command_options "generate-c" (help_options ++ ["--asn1-modules"; "--output-dir"])
| opts_binary : command_options "generate-binary" (help_options ++ ["--asn1-modules"; "--output-dir"; "--endianness"]).

(** argparse comes to a word with the property [P] in place of the command, or
    among the words of the command.  In the latter case no word of the
    command in front of "--" is ambiguous, even behind the word in question. *)
Inductive reaches (P : list string -> string -> Prop) : list string -> Prop :=
| reach_first : forall u w r, Forall (stray help_options) u -> P help_options w -> reaches P (u ++ w :: r)%list
| reach_command : forall u name opts a w r, Forall (stray help_options) u -> command_options name opts ->
    passes opts a -> P opts w ->
    (forall x y z, (a ++ w :: r = x ++ y :: z)%list -> ~ In "--" x -> ~ ambiguous opts y) ->
    reaches P (u ++ name :: a ++ w :: r)%list.
