(** * Specification: several runs into one folder *)
From Verif Require Import Base Ast Main Spec_Grammar Spec_Gen Spec_Failures.

(** A run of cfs, c or binary: a bound on its steps, the command and its input. *)
Definition one_run : Type := (nat * command * list module)%type.
Definition run_given (x : one_run) : Prop :=
  let '(_, cmd, input) := x in
  (exists names, config_command names cmd) /\ Forall (fun m => grammatical m = true) input.

(** [series xs fs fs']: the runs [xs], one after the other and each ending in
    whatever way, make folder [fs'] of folder [fs]. *)
Inductive series : list one_run -> folder -> folder -> Prop :=
| series_none : forall fs, series [] fs fs
| series_run : forall fuel cmd input xs fs fs1 r fs2, run fuel cmd input fs = (fs1, r) -> series xs fs1 fs2 ->
    series ((fuel, cmd, input) :: xs) fs fs2.

(** [f] is the name of a file of some module of the run. *)
Definition names_file (x : one_run) (f : string) : Prop :=
  let '(_, cmd, input) := x in exists m, In m input /\ file_of cmd m f.
