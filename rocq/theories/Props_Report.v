(** * Property C81: which faults of the input are reported with a message *)
From Verif Require Import Base PyStr Ast GenBinary Main Source Spec_Grammar Spec_Syntax Spec_Utf8 Spec_Source Spec_Gen Spec_Check Spec_Bundle
  Cli Spec_Cli Tree Spec_Tree Spec_Report Source_proofs Cli_proofs Tree2_proofs Report_proofs Props_Cli.
Open Scope string_scope.

(** C81: modules that are in order one by one, but not together.  The program
    ends with its message, except if a module is imported that is not given
    (and no name is listed or defined twice): then it ends with an exception. *)
Theorem C81_bundle : forall fuel cwd words t a dir names ms, command_line words a dir -> config_command names (command_of a) ->
  Forall2 (path_spells t cwd) (input_paths a) ms -> Forall module_valid ms -> ~ bundle_valid names ms ->
  (~ NoDup (map mod_name ms) \/ ~ NoDup names \/ ~ import_missing ms -> start_in fuel cwd words t = (t, Some Reported))
  /\ (NoDup (map mod_name ms) -> NoDup names -> import_missing ms -> start_in fuel cwd words t = (t, Some (Raised SyntaxErr))).
Proof. exact reported_bundle. Qed.
Print Assumptions C81_bundle.

(** The first module that is not in order decides, whatever the files after it
    contain, as long as they are UTF-8.  Undefined types, NULL and wrong ranges of POSIX types are
    reported; comments, reversed or too large ranges, and enumeration numbers
    are not. *)
Theorem C81_module : forall fuel cwd words t a dir names pa p pr ma m, command_line words a dir -> config_command names (command_of a) ->
  input_paths a = (pa ++ p :: pr)%list -> Forall2 (path_spells t cwd) pa ma -> Forall module_valid ma -> path_spells t cwd p m ->
  Forall (fun q => exists f, path_file t cwd q f /\ is_utf8 f) pr -> ~ module_valid m ->
  (module_sound m -> start_in fuel cwd words t = (t, Some Reported))
  /\ (module_consistent m -> exists e, e <> ConsistencyError /\ start_in fuel cwd words t = (t, Some (Raised e))).
Proof. exact reported_module. Qed.
Print Assumptions C81_module.

(** A file that is not UTF-8 ends the run with an exception, whatever the other
    files contain: files are decoded before any is parsed. *)
Theorem C81_undecodable : forall fuel cwd words t a dir pa p pr f, command_line words a dir -> input_paths a = (pa ++ p :: pr)%list ->
  Forall (fun q => exists g, path_file t cwd q g /\ is_utf8 g) pa -> path_file t cwd p f -> ~ is_utf8 f ->
  start_in fuel cwd words t = (t, Some (Raised UnicodeDecodeErr)).
Proof. exact undecodable. Qed.
Print Assumptions C81_undecodable.

(** The message appears only for rejected inputs, and never for cosmos. *)
Theorem C81_only : forall fuel cwd words t t', start_in fuel cwd words t = (t', Some Reported) ->
  t' = t /\ exists a dir names, command_line words a dir /\ config_command names (command_of a)
    /\ forall ms, Forall2 (path_spells t cwd) (input_paths a) ms -> ~ bundle_valid names ms.
Proof. exact reported_only. Qed.
Print Assumptions C81_only.

Definition undefined_text := "Module-b DEFINITIONS AUTOMATIC TAGS ::= BEGIN" ++ NL ++ "S ::= SEQUENCE { x T }" ++ NL ++ "END".
Definition reversed_text := "Module-c DEFINITIONS AUTOMATIC TAGS ::= BEGIN" ++ NL ++ "S ::= SEQUENCE { x INTEGER(9..1) }" ++ NL ++ "END".
Definition importing_text := "Module-d DEFINITIONS AUTOMATIC TAGS ::= BEGIN" ++ NL ++ "IMPORTS T FROM Module-e;" ++ NL ++ "S ::= SEQUENCE { x T }" ++ NL ++ "END".
Definition faulty_tree : node :=
  Dir [("a", File small_text); ("b", File undefined_text); ("c", File reversed_text); ("d", File importing_text); ("x", File "no module");
    ("y", File (String (ascii_of_N 252) "ber"))].

Example C81_sample :
  let go := fun ws => snd (start_in 9 [] (ws ++ ["--output-dir=out"])%list faulty_tree) in
  go ["generate-c"; "a"; "b"; "x"; "--asn1-modules=a,b"] = Some Reported
  /\ go ["generate-c"; "a"; "c"; "--asn1-modules=a,c"] = Some (Raised ValueErr)
  /\ go ["generate-c"; "a"; "x"; "b"; "--asn1-modules=a,b"] = Some (Raised TextXSyntaxError)
  /\ go ["generate-c"; "a"; "b"; "y"; "--asn1-modules=a,b"] = Some (Raised UnicodeDecodeErr)
  /\ go ["generate-c"; "x"; "y"; "z"; "--asn1-modules=a,b"] = Some (Raised UnicodeDecodeErr)
  /\ go ["generate-c"; "a"; "d"; "--asn1-modules=a,d"] = Some (Raised SyntaxErr)
  /\ go ["generate-c"; "a"; "a"; "d"; "--asn1-modules=a,d"] = Some Reported
  /\ go ["generate-cosmos"; "b"; "--asn1-module=b"; "--asn1-messages=S"; "--output-file-name=T"] = Some (Raised ConsistencyError).
Proof. vm_compute. repeat split. Qed.

(** The hypotheses of [C81_module] hold for the files a, b and x. *)
Example C81_sample_sound : exists ma m, path_spells faulty_tree [] "a" ma /\ module_valid ma
  /\ path_spells faulty_tree [] "b" m /\ module_sound m /\ ~ module_valid m /\ exists f, path_file faulty_tree [] "x" f /\ is_utf8 f.
Proof.
  assert (P : forall n f, lookup faulty_tree [n] = Some (File f) -> In n ["a"; "b"; "x"] -> path_file faulty_tree [] n f).
  { intros n f L J. apply path_file_iff. destruct J as [<-|[<-|[<-|[]]]]; (split; [discriminate|]; eexists; split; [vm_compute; reflexivity|exact L]). }
  assert (M : forall n f m, lookup faulty_tree [n] = Some (File f) -> In n ["a"; "b"; "x"] -> decode_file f = Some f -> read_text f = Ok m ->
    path_spells faulty_tree [] n m).
  { intros n f m L J U R. exists f, f. split; [auto|]. split; [apply newlines_iff; auto|apply read_text_ok; exact R]. }
  eexists. eexists. split; [eapply M; [reflexivity|cbn; auto|vm_compute; reflexivity|vm_compute; reflexivity]|].
  split; [apply Check_proofs.module_accepted_iff; [reflexivity|]; eexists; vm_compute; reflexivity|].
  split; [eapply M; [reflexivity|cbn; auto|vm_compute; reflexivity|vm_compute; reflexivity]|].
  split; [split; [constructor|repeat constructor]|]. split.
  - intros (_ & _ & T). destruct (T _ _ "T" (or_introl eq_refl) (or_introl eq_refl) eq_refl) as [[]|[K|[]]]. discriminate.
  - eexists. split; [apply P; [reflexivity|cbn; auto]|]. apply Utf8_proofs.utf8_valid_iff. reflexivity.
Qed.
