(** * Property C102: the exception that ends a run tells the fault *)
From Verif Require Import Base PyStr Ast Grammar GenBinary Main Source Spec_Grammar Spec_Syntax Spec_Utf8 Spec_Source Spec_Gen Spec_Enum Spec_Num Spec_Check Spec_Bundle
  Cli Spec_Cli Tree Messages Spec_Tree Spec_Report Spec_Message Spec_Raise Source_proofs Tree2_proofs Message_proofs Raise_proofs Props_Cli Props_Report Props_Message.
Open Scope string_scope.

(** [raised order cwd words t]: the exception and its message, if reading the
    input ends with one.

    C102: the run then ends with this exception and has changed no file. *)
Theorem C102_ends : forall order, set_order order -> forall fuel cwd words t e text,
  raised order cwd words t = Some (e, text) -> start_in fuel cwd words t = (t, Some (Raised e)).
Proof. exact raised_ends. Qed.
Print Assumptions C102_ends.

(** The message tells a fault of the first module with a fault, or an import
    from modules that are not given. *)
Theorem C102_true : forall order, set_order order -> forall cwd words t e text, raised order cwd words t = Some (e, text) -> e <> ConsistencyError ->
  exists a dir, command_line words a dir
  /\ ((exists pa p pr ma m, input_paths a = (pa ++ p :: pr)%list /\ Forall2 (path_spells t cwd) pa ma /\ Forall module_valid ma
        /\ path_spells t cwd p m /\ module_raises m e text)
     \/ exists ms, Forall2 (path_spells t cwd) (input_paths a) ms /\ Forall module_valid ms /\ e = SyntaxErr /\ imports_raise ms text).
Proof. exact raised_true. Qed.
Print Assumptions C102_true.

(** Only cosmos raises what the other commands report. *)
Theorem C102_cosmos : forall order, set_order order -> forall cwd words t text, raised order cwd words t = Some (ConsistencyError, text) ->
  exists a dir, command_line words a dir /\ (exists m l o, command_of a = GenerateCosmos m l o)
  /\ ((exists pa p pr ma m, input_paths a = (pa ++ p :: pr)%list /\ Forall2 (path_spells t cwd) pa ma /\ Forall module_valid ma
        /\ path_spells t cwd p m /\ module_says m text)
     \/ exists ms, Forall2 (path_spells t cwd) (input_paths a) ms /\ Forall module_valid ms /\ (NoDup (map mod_name ms) -> bundle_says [] ms text)).
Proof. exact raised_cosmos. Qed.
Print Assumptions C102_cosmos.

(** The first faulty module is told about if its comments are in order and its
    enumeration numbers have places. *)
Theorem C102_told : forall order cwd words t a dir pa p pr ma m, command_line words a dir ->
  input_paths a = (pa ++ p :: pr)%list -> Forall2 (path_spells t cwd) pa ma -> Forall module_valid ma -> path_spells t cwd p m ->
  Forall (fun q => exists f, path_file t cwd q f /\ is_utf8 f) pr -> ~ module_valid m ->
  Forall clean (module_comments m) -> Forall in_places (mod_defs m) ->
  printed order cwd words t <> "" \/ exists e text, raised order cwd words t = Some (e, text).
Proof. exact told. Qed.
Print Assumptions C102_told.

Definition faulty (l : list string) : string := "Module-x DEFINITIONS AUTOMATIC TAGS ::= BEGIN" ++ NL ++ String.concat NL l ++ NL ++ "END".
Definition raising_tree : node := Dir
  [("a", File small_text);
   ("i", File (faulty ["T ::= INTEGER(0..9)"; "S ::= SEQUENCE { x SEQUENCE (SIZE (3)) OF INTEGER(5..-3) }"]));
   ("r", File (faulty ["T ::= REAL(2.5 .. 1.0)"]));
   ("n", File (faulty ["T ::= REAL(-1.0 .. 1.0E999)"]));
   ("c", File (faulty ["E ::= ENUMERATED {"; "up, -- so -- far"; "down"; "}"]));
   ("e", File (faulty ["E ::= ENUMERATED { up(1), down(3) }"]));
   ("g", File (faulty ["E ::= ENUMERATED { up(1), mid(1), down(1) }"]));
   ("h", File (faulty ["E ::= ENUMERATED { up(3), down(-2) }"]));
   ("d", File ("Module-d DEFINITIONS AUTOMATIC TAGS ::= BEGIN" ++ NL ++ "IMPORTS V FROM Module-q U FROM Module-a W FROM Module-p;" ++ NL ++ "S ::= SEQUENCE { x V }" ++ NL ++ "END"));
   ("u", File undefined_text)].
Definition exceptions (ws : list string) := raised dedup [] (ws ++ ["--output-dir=out"])%list raising_tree.
Definition exception_of (p : string) := exceptions ["generate-c"; "a"; p; "--asn1-modules=a,x"].

Example C102_sample :
  map exception_of ["i"; "r"; "n"; "c"; "e"; "g"; "h"; "d"; "u"; "a"] =
  [Some (ValueErr, "end: -3 is less then begin: 5");
   Some (ValueErr, "end: 1.0 is less then begin: 2.5");
   Some (FloatingPointErr, "-1.0 or inf are out of double range");
   Some (TextXSyntaxError, "Comment for 'up' contains an invalid sign '--': 'so -- far'");
   Some (IndexErr, "Some indices are not present, multiple times or out of bounds");
   Some (IndexErr, "index '1' is defined multiple times");
   None;
   Some (SyntaxErr, "Module 'd' uses undeclared dependencies {'q', 'p'}");
   None; None]
  /\ exceptions ["generate-cosmos"; "u"; "--asn1-module=b"; "--asn1-messages=S"; "--output-file-name=T"]
     = Some (ConsistencyError, "Type 'T' used in 'b' is not defined").
Proof. vm_compute. repeat split. Qed.

(** A number said to be defined multiple times may be defined once: -1 is
    another way to write the last place. *)
Theorem C102_misleading : exists order cwd words t m n c l, set_order order
  /\ path_spells t cwd "m" m /\ mod_defs m = [DEnumerated n c l] /\ map number l = [2; -1; 2]%Z
  /\ raised order cwd words t = Some (IndexErr, "index '-1' is defined multiple times").
Proof.
  exists dedup, [], ["generate-c"; "m"; "--asn1-modules=x"], (Dir [("m", File (faulty ["E ::= ENUMERATED { up(2), mid(-1), down(2) }"]))]).
  destruct (read_module (faulty ["E ::= ENUMERATED { up(2), mid(-1), down(2) }"])) as [m|] eqn:R; [|vm_compute in R; discriminate].
  assert (R' := R). vm_compute in R'. exists m. injection R' as <-. eexists. eexists. eexists. split; [exact first_occurrences|].
  split; [|split; [reflexivity|split; [reflexivity|vm_compute; reflexivity]]].
  exists (faulty ["E ::= ENUMERATED { up(2), mid(-1), down(2) }"]), (faulty ["E ::= ENUMERATED { up(2), mid(-1), down(2) }"]).
  split; [|split; [apply newlines_iff; auto|apply Syntax3_proofs.read_module_iff; exact R]].
  apply path_file_iff. split; [discriminate|]. eexists. split; [vm_compute; reflexivity|reflexivity].
Qed.
Print Assumptions C102_misleading.
