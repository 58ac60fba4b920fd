(** * Properties C51-C56: texts, files and arguments *)
From Verif Require Import Base PyNum PyStr PyFloat Ast Grammar Size Processor Bundle Main Source Spec_Grammar
  Spec_Syntax Spec_Utf8 Spec_Source Syntax3_proofs Grammatical_proofs Source_proofs Write_proofs.
Open Scope string_scope.

Definition sample_text : string :=
  "Module-demo DEFINITIONS AUTOMATIC TAGS ::= BEGIN -- demo" ++ NL ++
  "IMPORTS Uint8-t, Uint16-t FROM Module-simple-types;" ++ NL ++
  "Level ::= REAL(-1.5 .. 2.5e3)" ++ NL ++
  "Mode ::= ENUMERATED { off(0), on(1) -- [V] power" ++ NL ++ "}" ++ NL ++
  "Packet ::= SEQUENCE { -- (0x1A)" ++ NL ++
  "  header Header (WITH COMPONENTS { version(0), valid(TRUE) })," ++ NL ++
  "  data SEQUENCE (SIZE (4)) OF Uint8-t, -- ENDIANNESS(LITTLE) [m/s] speeds" ++ NL ++
  "  mode Mode" ++ NL ++ "}" ++ NL ++
  "END" ++ NL.
Definition sample_read : module :=
  mkmodule "demo" (Some (mkcomment "demo" "" false))
    [mkimport ["Uint8-t"; "Uint16-t"] "simple-types" None] None
    [DSimple "Level" (TReal (Some (mkfloat (DFin true 6755399441055744 (-52)) "-1.5",
                                   mkfloat (DFin false 5497558138880000 (-41)) "2500.0"))) None;
     DEnumerated "Mode" None [mkenum "off" (Some 0%Z) None;
                              mkenum "on" (Some 1%Z) (Some (mkcomment "power" "V" false))];
     DSequence "Packet" (Some (mkcomment "(0x1A)" "" false))
       [mkmember "header" (TName "Header") None
          (Some (WC None [WI "version" (VInt 0) None; WI "valid" (VBool true) None]));
        mkmember "data" (TArray 4 (TName "Uint8-t")) (Some (mkcomment "speeds" "m/s" true)) None;
        mkmember "mode" (TName "Mode") None None]].

(** C51: whatever the grammar reads is grammatical, so that the theorems
    about grammatical modules apply to every input file that can be read. *)
Theorem C51_read_grammatical : forall text m, read_module text = Some m -> grammatical m = true.
Proof. exact read_grammatical. Qed.
Print Assumptions C51_read_grammatical.

Example C51_sample : read_module sample_text = Some sample_read.
Proof. vm_compute. reflexivity. Qed.

(** C52: the grammar reads a text as a module exactly if the text spells the
    module. *)
Theorem C52_read_exactly : forall text m, read_module text = Some m <-> spells text m.
Proof. exact read_module_iff. Qed.
Print Assumptions C52_read_exactly.

(** No text spells two modules. *)
Theorem C52_unambiguous : forall text m m', spells text m -> spells text m' -> m = m'.
Proof. exact spelling_unique. Qed.
Print Assumptions C52_unambiguous.

Example C52_sample : spells sample_text sample_read /\ read_module (sample_text ++ ".") = None.
Proof. split; [apply C52_read_exactly|]; vm_compute; reflexivity. Qed.

(** C53: the modules some text is read as are exactly the grammatical ones
    with comments that do not begin with a space or with another part of a
    comment, and no comment on imports if there are none.  So what is proved of grammatical
    modules is about modules that the tool can be given. *)
Theorem C53_readable_modules : forall m,
  (exists text, read_module text = Some m) <-> grammatical m = true /\ writable m.
Proof. exact readable_iff. Qed.
Print Assumptions C53_readable_modules.

Example C53_sample : grammatical sample_read = true /\ writable sample_read.
Proof. apply C53_readable_modules. exists sample_text. exact C51_sample. Qed.
Example C53_unwritable :
  let m := mkmodule "x" None [] None [DSimple "T" TBoolean (Some (mkcomment "[m] depth" "" false))] in
  grammatical m = true /\ ~ exists text, read_module text = Some m.
Proof.
  split; [reflexivity|]. intros H. apply C53_readable_modules in H as [_ (_ & _ & _ & _ & H)].
  apply Forall_inv in H as (_ & K & _). apply (K eq_refl "m" " depth").
  split; [discriminate|]. split; reflexivity.
Qed.

(** C54, full statement: what stands after "--" on a line does not change the
    members.  False: if the rest of the line contains a character outside the
    class of comment characters (a brace, say), the comment ends after "--"
    and its text is read as part of the module. *)
Theorem C54_comments_ignored_refuted : exists before t t' after m m',
  one_line t /\ one_line t'
  /\ read_module (before ++ "--" ++ t ++ NL ++ after) = Some m
  /\ read_module (before ++ "--" ++ t' ++ NL ++ after) = Some m'
  /\ member_keys m = ["a"; "c"] /\ member_keys m' = ["a"; "b"; "c"].
Proof.
  exists ("Module-x DEFINITIONS AUTOMATIC TAGS ::= BEGIN" ++ NL ++ "S ::= SEQUENCE { a BOOLEAN, ").
  exists " no braces here", " b BOOLEAN } T ::= SEQUENCE {", ("c BOOLEAN }" ++ NL ++ "END").
  eexists. eexists. vm_compute. repeat split.
Qed.
Print Assumptions C54_comments_ignored_refuted.

(** What holds: a comment made of comment characters takes the rest of the
    line, whatever its text, unit and endianness mark are. *)
Theorem C54_comment_takes_line_partial : forall c n t e r,
  all_chars comment_char t = true -> (e = "" \/ exists x, e = NL ++ x) ->
  Asn1Comment true (repeat_str n " " ++ "--" ++ t ++ e) = Some (c, r) -> r = e.
Proof.
  intros c n t e r C L H. apply Token_proofs.Asn1Comment_inv in H. exact (comment_takes_line c n t e r C L H).
Qed.
Print Assumptions C54_comment_takes_line_partial.

Example C54_sample :
  Asn1Comment true ("  -- [m] depth (max)" ++ NL ++ "b BOOLEAN")
  = Some (mkcomment "depth (max)" "m" false, NL ++ "b BOOLEAN").
Proof. vm_compute. reflexivity. Qed.

(** C55: if every input file spells a module, the run is the one of the
    command on these modules, in the order of the files; *)
Theorem C55_files_read : forall fuel a d fs ms,
  Forall2 (file_spells d) (input_paths a) ms ->
  Forall (fun m => grammatical m = true) ms /\ main fuel a d fs = run fuel (command_of a) ms fs.
Proof. intros fuel a d fs ms H. split; [exact (files_grammatical _ _ _ H)|exact (main_run fuel a d fs ms H)]. Qed.
Print Assumptions C55_files_read.

(** otherwise the run fails and leaves the output folder as it was; *)
Theorem C55_unreadable_untouched : forall fuel a d fs,
  (~ exists ms, Forall2 (file_spells d) (input_paths a) ms) -> exists e, main fuel a d fs = (fs, Err e).
Proof. exact main_unreadable. Qed.
Print Assumptions C55_unreadable_untouched.

(** a missing file is reported before any text is parsed, and so is a file that
    is not UTF-8; of several, the first. *)
Theorem C55_missing_file : forall fuel a d fs pre p post, input_paths a = (pre ++ p :: post)%list ->
  (forall q f, In q pre -> folder_get d q = Some f -> is_utf8 f) -> folder_get d p = None -> main fuel a d fs = (fs, Err AssertionErr).
Proof. exact file_missing. Qed.
Print Assumptions C55_missing_file.

Theorem C55_undecodable_file : forall fuel a d fs pre p post f, input_paths a = (pre ++ p :: post)%list ->
  (forall q, In q pre -> exists g, folder_get d q = Some g /\ is_utf8 g) -> folder_get d p = Some f -> ~ is_utf8 f ->
  main fuel a d fs = (fs, Err UnicodeDecodeErr).
Proof. exact file_undecodable. Qed.
Print Assumptions C55_undecodable_file.

Example C55_sample :
  Forall2 (file_spells [("demo.asn", sample_text)]) (input_paths (ArgsC ["demo.asn"] "demo")) [sample_read]
  /\ main 9 (ArgsC ["demo.asn"] "demo") [("demo.asn", "END")] [] = ([], Err TextXSyntaxError)
  /\ main 9 (ArgsC ["a.asn"; "demo.asn"] "demo") [("a.asn", "END")] [] = ([], Err AssertionErr)
  /\ (let d := [("a.asn", "END"); ("b.asn", String (ascii_of_N 252) "ber")] in
      main 9 (ArgsC ["a.asn"; "b.asn"; "demo.asn"] "demo") d [] = ([], Err UnicodeDecodeErr)
      /\ is_utf8 "END" /\ ~ is_utf8 (String (ascii_of_N 252) "ber")).
Proof.
  split; [|split; [vm_compute; reflexivity|]; split; [vm_compute; reflexivity|]; split; [vm_compute; reflexivity|];
    split; [apply Utf8_proofs.utf8_valid_iff; reflexivity|intros H; apply Utf8_proofs.utf8_valid_iff in H; vm_compute in H; discriminate]].
  constructor; [|constructor]. exists sample_text, sample_text.
  split; [reflexivity|]. split; [apply newlines_iff; vm_compute; reflexivity|apply C52_sample].
Qed.

(** The text of a file exists if the file is UTF-8, is unique, and does not depend on the platform the file
    comes from. *)
Theorem C55_line_ends : forall f,
  (is_utf8 f <-> exists t, text_of_file f t) /\ (forall t u, text_of_file f t -> text_of_file f u -> t = u)
  /\ forall d p m, folder_get d p = Some f -> (file_spells d p m <-> exists t, text_of_file f t /\ spells t m).
Proof. exact file_text. Qed.
Print Assumptions C55_line_ends.

Example C55_windows : let f := "Module-a DEFINITIONS AUTOMATIC TAGS ::= BEGIN" ++ String CR NL ++ "M ::= BOOLEAN -- x" ++ String CR NL ++ "END" in
  file_spells [("a.asn", f)] "a.asn" (mkmodule "a" None [] None [DSimple "M" TBoolean (Some (mkcomment "x" "" false))])
  /\ read_text f = Err TextXSyntaxError.
Proof.
  split; [|vm_compute; reflexivity]. eexists. eexists. split; [reflexivity|]. split; [apply newlines_iff; reflexivity|].
  apply read_text_ok. vm_compute. reflexivity.
Qed.

(** C56: the names given on the command line are the pieces between the
    commas. *)
Theorem C56_names_split : forall s l,
  split_commas s = l <-> l <> [] /\ Forall no_comma l /\ String.concat "," l = s.
Proof. exact split_commas_iff. Qed.
Print Assumptions C56_names_split.

Theorem C56_names_used : forall paths l, l <> [] -> Forall no_comma l ->
  command_of (ArgsCfs paths (String.concat "," l)) = GenerateCfs l
  /\ command_of (ArgsC paths (String.concat "," l)) = GenerateC l
  /\ (forall e, command_of (ArgsBinary paths (String.concat "," l) e) = GenerateBinary l e)
  /\ forall m out, command_of (ArgsCosmos paths m (String.concat "," l) out) = GenerateCosmos m l out.
Proof.
  intros paths l N F. unfold command_of. rewrite (proj2 (split_commas_iff _ l) (conj N (conj F eq_refl))). auto.
Qed.
Print Assumptions C56_names_used.

Example C56_sample : split_commas "simple-types,,demo" = ["simple-types"; ""; "demo"].
Proof. reflexivity. Qed.
