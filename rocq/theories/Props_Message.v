(** * Property C90: the message about a rejected input is true *)
From Verif Require Import Base PyStr Ast GenBinary Main Source Spec_Grammar Spec_Syntax Spec_Utf8 Spec_Source Spec_Gen Spec_Check Spec_Bundle
  Cli Spec_Cli Tree Messages Spec_Tree Spec_Report Spec_Message Source_proofs Cli_proofs Tree2_proofs Report_proofs Message_proofs Props_Cli Props_Report.
Open Scope string_scope.

(** [printed order cwd words t] is what the program prints; Python iterates sets
    in some order.

    C90: something is printed exactly if the run ends with the message. *)
Theorem C90_printed : forall order, set_order order -> forall fuel cwd words t,
  printed order cwd words t <> "" <-> start_in fuel cwd words t = (t, Some Reported).
Proof. exact printed_iff. Qed.
Print Assumptions C90_printed.

(** What is printed names a fault of the first module with a fault, or of the
    modules together, and everything checked before was in order. *)
Theorem C90_true : forall order, set_order order -> forall cwd words t, printed order cwd words t <> "" ->
  exists a dir names text, command_line words a dir /\ config_command names (command_of a)
  /\ printed order cwd words t = "error: an issue occurred when validating the ASN.1 bundle: " ++ text ++ "." ++ NL
  /\ ((exists pa p pr ma m, input_paths a = (pa ++ p :: pr)%list /\ Forall2 (path_spells t cwd) pa ma /\ Forall module_valid ma
        /\ path_spells t cwd p m /\ module_says m text)
     \/ exists ms, Forall2 (path_spells t cwd) (input_paths a) ms /\ Forall module_valid ms /\ bundle_says names ms text).
Proof. exact printed_true. Qed.
Print Assumptions C90_true.

Definition clause_text := "Module-c DEFINITIONS AUTOMATIC TAGS ::= BEGIN" ++ NL ++ "E ::= ENUMERATED { up, down }" ++ NL
  ++ "S ::= SEQUENCE { x E (WITH COMPONENTS { y (7) }) }" ++ NL ++ "END".
Definition wanting_text := "Module-d DEFINITIONS AUTOMATIC TAGS ::= BEGIN" ++ NL ++ "IMPORTS V, M, U FROM Module-a;" ++ NL ++ "S ::= SEQUENCE { x V }" ++ NL ++ "END".
Definition talking_tree : node := Dir [("a", File small_text); ("b", File undefined_text); ("c", File clause_text); ("d", File wanting_text)].
Definition messages (ws : list string) : string := printed dedup [] (ws ++ ["--output-dir=out"])%list talking_tree.

(** A set iterated in the order of its first occurrences. *)
Lemma first_occurrences : set_order dedup.
Proof. intros l. split; [apply dedup_NoDup|intros n; apply Lib_proofs.dedup_In]. Qed.

Example C90_sample :
  messages ["generate-c"; "a"; "b"; "d"; "--asn1-modules=a,b"] = "error: an issue occurred when validating the ASN.1 bundle: Type 'T' used in 'b' is not defined." ++ NL
  /\ messages ["generate-c"; "a"; "d"; "--asn1-modules=a,d"]
     = "error: an issue occurred when validating the ASN.1 bundle: Error parsing 'd': Imports {'V', 'U'} From 'a' not found.." ++ NL
  /\ messages ["generate-c"; "a"; "--asn1-modules=c,a,b,c"]
     = "error: an issue occurred when validating the ASN.1 bundle: The module c is found multiple times in the --asn1-modules command-line argument." ++ NL
  /\ messages ["generate-cfs"; "a"; "--asn1-modules=c,a,b"]
     = "error: an issue occurred when validating the ASN.1 bundle: Modules c, b were found in the --asn1-modules command-line argument, but were not found in the bundle. "
       ++ NL ++ NL ++ "Modules found in command-line argument: a, b, c" ++ NL ++ NL ++ "Modules found in bundle               : a." ++ NL
  /\ messages ["generate-cfs"; "a"; "--asn1-modules=a"] = "".
Proof. vm_compute. repeat split. Qed.

(** A type said not to be defined may be defined: a clause for a type that is no
    sequence gets this message. *)
Theorem C90_misleading : exists order cwd words t m, set_order order
  /\ path_spells t cwd "c" m /\ In "E" (defined_names m)
  /\ printed order cwd words t = "error: an issue occurred when validating the ASN.1 bundle: used type 'E' in 'S' is not defined." ++ NL.
Proof.
  exists dedup, [], ["generate-c"; "c"; "--asn1-modules=c"], talking_tree. eexists. split; [exact first_occurrences|].
  split; [|split; [|vm_compute; reflexivity]].
  - exists clause_text, clause_text. split; [|split; [apply newlines_iff; auto|apply read_text_ok; vm_compute; reflexivity]].
    apply path_file_iff. split; [discriminate|]. eexists. split; [vm_compute; reflexivity|reflexivity].
  - left. reflexivity.
Qed.
Print Assumptions C90_misleading.
