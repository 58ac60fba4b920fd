(** * Property C103: the exit code *)
From Coq Require Import NArith.
From Verif Require Import Base PyStr Ast Main Source Spec_Grammar Cli Spec_Cli Tree Status Spec_Status Cli_proofs Status_proofs Props_Cli.
Open Scope string_scope.
Open Scope N_scope.

(** [exit_code fuel cwd words t]: the exit code of the process.

    C103: it is 0 exactly if the run was finished or argparse came to a word
    that asks for help, *)
Theorem C103_zero : forall fuel cwd words t, Forall (fun w => ~ drops_value w) words ->
  (exit_code fuel cwd words t = Some 0 <->
   (exists t', start_in fuel cwd words t = (t', Some Finished)) \/ reaches asks_help words).
Proof. intros fuel cwd words t _. exact (code_zero fuel cwd words t). Qed.
Print Assumptions C103_zero.

(** 2 exactly if the command line is not accepted and argparse came to no such
    word, *)
Theorem C103_two : forall fuel cwd words t, Forall (fun w => ~ drops_value w) words ->
  (exit_code fuel cwd words t = Some 2 <->
   (~ exists a dir, command_line words a dir) /\ ~ reaches asks_help words /\ ~ reaches empty_value words).
Proof. intros fuel cwd words t _. exact (code_two fuel cwd words t). Qed.
Print Assumptions C103_two.

(** 1 exactly if a fault was reported or an exception ended the run, *)
Theorem C103_one : forall fuel cwd words t, Forall (fun w => ~ drops_value w) words ->
  (exit_code fuel cwd words t = Some 1 <->
   (exists t' e, start_in fuel cwd words t = (t', Some e) /\ e <> Finished /\ e <> Hangs) \/ reaches empty_value words).
Proof. intros fuel cwd words t _. exact (code_one fuel cwd words t). Qed.
Print Assumptions C103_one.

(** and there is none exactly if the run hangs. *)
Theorem C103_none : forall fuel cwd words t, exit_code fuel cwd words t = None <-> exists t', start_in fuel cwd words t = (t', Some Hangs).
Proof. exact code_none. Qed.
Print Assumptions C103_none.

(** On an accepted command line argparse comes to no help, so that 0 means
    that the run was finished. *)
Theorem C103_accepted : forall fuel cwd words t a dir, command_line words a dir ->
  exists t' e, start_in fuel cwd words t = (t', Some e) /\ ~ reaches asks_help words /\ ~ reaches empty_value words.
Proof. exact code_line_only. Qed.
Print Assumptions C103_accepted.

(** Help, a failure of argparse and the exit code 2 leave the tree alone. *)
Theorem C103_unchanged : forall fuel cwd words t, Forall (fun w => ~ drops_value w) words ->
  reaches asks_help words \/ reaches empty_value words \/ exit_code fuel cwd words t = Some 2 ->
  start_in fuel cwd words t = (t, None).
Proof. intros fuel cwd words t _. exact (code_unchanged fuel cwd words t). Qed.
Print Assumptions C103_unchanged.

(** Words as given, and the exit codes.  An unknown option or a missing one
    does not matter in front of -h, an ambiguous one does even behind it. *)
Definition code (ws : list string) : option N := exit_code 9 [] ws (Dir [("a.asn", File small_text); ("out", Dir [("a.c", Dir [])])]).
Example C103_sample :
  map code [["generate-c"; "a.asn"; "--asn1-modules=a"]; ["generate-c"; "a.asn"; "--asn1-modules=a"; "-h"];
            ["--verbose"; "generate-c"; "--fast"; "--he"]; ["-hh"]; ["generate-binary"; "--endianness=big"; "-h"];
            ["generate-cosmos"; "-h"; "--asn1-m"]; ["generate-cosmos"; "-h"; "--"; "--asn1-m"];
            ["generate-c"; "--output-dir"; "-h"]; ["generate-c"; "--"; "-h"]; ["-hx"]; []; ["generate-c"; "a.asn"];
            ["generate-c"; "b.asn"; "--asn1-modules=a"]; ["generate-c"; "a.asn"; "--asn1-modules=b"]; ["generate-c"; "-h="]]
  = [Some 0; Some 0; Some 0; Some 0; Some 2; Some 2; Some 0; Some 2; Some 2; Some 2; Some 2; Some 2; Some 1; Some 1; Some 1].
Proof. vm_compute. reflexivity. Qed.

Example C103_reached : reaches asks_help ["--verbose"; "generate-c"; "--fast"; "--he"]
  /\ command_line ["generate-c"; "a.asn"; "--asn1-modules=a"] (ArgsC ["a.asn"] "a") "output/c".
Proof. split; [apply (stop_iff _ _ asks_help_ends); reflexivity|apply parse_args_iff; reflexivity]. Qed.

(** The exit code 1 does not mean that nothing was written: a.c is a folder
    here, and a.h is written before. *)
Theorem C103_failed_untouched_refuted : exists cwd words t t' e, start_in 9 cwd words t = (t', Some e)
  /\ exit_code 9 cwd words t = Some 1 /\ t' <> t.
Proof.
  exists [], ["generate-c"; "a.asn"; "--asn1-modules=a"; "--output-dir=out"], (Dir [("a.asn", File small_text); ("out", Dir [("a.c", Dir [])])]).
  eexists. eexists. split; [vm_compute; reflexivity|]. split; [vm_compute; reflexivity|]. discriminate.
Qed.
Print Assumptions C103_failed_untouched_refuted.
