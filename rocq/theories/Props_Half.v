(** * Property C110: what a run leaves, also if it fails *)
From Coq Require Import Permutation.
From Verif Require Import Base PyNum PyStr Ast Bundle CCommon GenBinary Main Source Spec_Grammar Spec_Check Spec_Bundle Spec_Gen Spec_Runs Spec_History
  Cli Spec_Cli Status Tree Spec_Tree Spec_Failures Spec_Hang Spec_Done Spec_Letters
  Source_proofs Bundle_proofs Cli_proofs Tree_proofs Tree2_proofs Tree3_proofs Half_proofs Half_disk_proofs Props_Cli Props_Hang Props_Failures.
Open Scope string_scope.
Open Scope list_scope.

(** C110.  However a run of cfs, c or binary ends, it has processed the modules
    up to some point of their order: the files of these modules have their one
    text (Spec_Letters), all others are as before.  If the run succeeds these
    are all modules.  They all meet the command's demands (Spec_Failures), and
    without circles among imports and types the run stops only at a module that
    does not. *)
Theorem C110_left : forall names cmd fuel input fs fs' r, config_command names cmd -> Forall (fun m => grammatical m = true) input ->
  run fuel cmd input fs = (fs', r) ->
  exists done left, Permutation input (done ++ left) /\ (done <> [] -> taken_in_order input (done ++ left)) /\ (r = Ok tt -> left = [])
    /\ Forall (module_fits cmd input) done
    /\ (well_founded_input names input -> (S (length input + length (definitions input)) <= fuel)%nat ->
         taken_in_order input (done ++ left) /\ (left = [] \/ exists m rest, left = m :: rest /\ ~ module_fits cmd input m))
    /\ (forall m f, In m done -> file_of cmd m f -> exists text, Spec_Letters.file_text cmd input m f text)
    /\ forall f text, folder_get fs' f = Some text <->
      (exists m, In m done /\ Spec_Letters.file_text cmd input m f text)
      \/ ((forall m, In m done -> ~ file_of cmd m f) /\ folder_get fs f = Some text).
Proof. exact left_files. Qed.
Print Assumptions C110_left.

(** So no run leaves a wrong or incomplete text. *)
Theorem C110_never_torn : forall names cmd fuel input fs fs' r f text, config_command names cmd -> Forall (fun m => grammatical m = true) input ->
  run fuel cmd input fs = (fs', r) -> folder_get fs' f = Some text ->
  folder_get fs f = Some text \/ exists m, In m input /\ Spec_Letters.file_text cmd input m f text.
Proof. exact never_torn. Qed.
Print Assumptions C110_never_torn.

(** On disk, if no file is in the way of the output folder and no folder has the
    name of a file to be written. *)
Theorem C110_disk : forall fuel cwd words t a dir names vs e ms, command_line words a dir -> config_command names (command_of a) ->
  is_folder t cwd -> leads cwd dir vs e -> Forall2 (path_spells t cwd) (input_paths a) ms -> bundle_valid names ms -> room t vs e (command_of a) ms ->
  exists done left t' x, start_in fuel cwd words t = (t', Some x)
    /\ Permutation ms (done ++ left) /\ (done <> [] -> taken_in_order ms (done ++ left)) /\ (x = Finished -> left = [])
    /\ Forall (module_fits (command_of a) ms) done
    /\ (well_founded_input names ms -> (S (length ms + length (definitions ms)) <= fuel)%nat ->
         taken_in_order ms (done ++ left) /\ (left = [] \/ exists m rest, left = m :: rest /\ ~ module_fits (command_of a) ms m))
    /\ (forall m f, In m done -> file_of (command_of a) m f -> exists text, Spec_Letters.file_text (command_of a) ms m f text)
    /\ (forall l, is_folder t' l <-> is_folder t l \/ In l vs)
    /\ forall l c, file_at t' l c <->
      (exists m f, In m done /\ l = e ++ [f] /\ Spec_Letters.file_text (command_of a) ms m f c)
      \/ (~ output_place e (command_of a) done l /\ file_at t l c).
Proof. exact left_on_disk. Qed.
Print Assumptions C110_disk.

(** The run of [C105_sample] hangs after two of four modules. *)
Example C110_sample : let names := ["b"; "a"; "d"; "e"] in exists fs' old text,
  config_command names (GenerateC names) /\ Forall (fun m => grammatical m = true) knot
  /\ run 11 (GenerateC names) knot [("b.h", old)] = (fs', OutOfFuel)
  /\ folder_get fs' "b.h" = Some old /\ folder_get fs' "e.h" = Some text
  /\ (exists m, In m knot /\ Spec_Letters.file_text (GenerateC names) knot m "e.h" text).
Proof.
  intros names. eexists. exists "old". eexists.
  assert (C : config_command names (GenerateC names)) by (right; left; reflexivity).
  assert (G : Forall (fun m => grammatical m = true) knot) by (repeat constructor).
  split; [exact C|]. split; [exact G|]. split; [vm_compute; reflexivity|]. split; [vm_compute; reflexivity|]. split; [vm_compute; reflexivity|].
  edestruct (C110_never_torn names (GenerateC names) 11 knot [("b.h", "old")]) with (f := "e.h") as [E|E]; [exact C|exact G|vm_compute; reflexivity|vm_compute; reflexivity| |exact E].
  discriminate E.
Qed.

(** Input without circles on which the run stops at its second module. *)
Example C110_stops_sample : let cmd := GenerateC ["b"; "a"] in
  well_founded_input ["b"; "a"] late_modules /\ (S (length late_modules + length (definitions late_modules)) <= 5)%nat
  /\ Forall (fun m => grammatical m = true) late_modules
  /\ exists fs' e text, run 5 cmd late_modules [] = (fs', Err e) /\ folder_get fs' "a.h" = Some text /\ folder_get fs' "b.h" = None.
Proof.
  intros cmd. destruct C72_sample as (G & W & _). split; [exact W|]. split; [cbn; lia|]. split; [exact G|].
  do 3 eexists. split; [vm_compute; reflexivity|]. split; vm_compute; reflexivity.
Qed.

(** The module b is recursive, so the process hangs when that of a is done. *)
Definition round_text : string := ("Module-b DEFINITIONS AUTOMATIC TAGS ::= BEGIN" ++ NL ++ "R ::= SEQUENCE { x R }" ++ NL ++ "END")%string.
Definition two_files : node := Dir [("a.asn", File small_text); ("b.asn", File round_text)].
Example C110_disk_sample : let words := ["generate-c"; "a.asn"; "b.asn"; "--asn1-modules=a,b"; "--output-dir=out"] in
  exists a dir vs e ms, command_line words a dir /\ config_command ["a"; "b"] (command_of a) /\ is_folder two_files [] /\ leads [] dir vs e
  /\ Forall2 (path_spells two_files []) (input_paths a) ms /\ bundle_valid ["a"; "b"] ms /\ room two_files vs e (command_of a) ms
  /\ exists t' c, start_in 9 [] words two_files = (t', Some Hangs) /\ file_at t' ["out"; "a.h"] c.
Proof.
  intros words. assert (P : exists m1 m2, read_text small_text = Ok m1 /\ read_text round_text = Ok m2) by (do 2 eexists; split; vm_compute; reflexivity).
  destruct P as (m1 & m2 & H1 & H2).
  exists (ArgsC ["a.asn"; "b.asn"] "a,b"), "out", [["out"]], ["out"], [m1; m2].
  split; [apply parse_args_iff; reflexivity|]. split; [right; left; reflexivity|]. split; [eexists; reflexivity|]. split; [apply leads_iff; vm_compute; auto|].
  assert (F : Forall2 (path_spells two_files []) ["a.asn"; "b.asn"] [m1; m2]).
  { constructor; [|constructor; [|constructor]].
    - exists small_text, small_text. split; [|split; [apply newlines_iff; vm_compute; reflexivity|apply read_text_ok; exact H1]].
      apply path_file_iff. split; [discriminate|]. eexists. split; vm_compute; reflexivity.
    - exists round_text, round_text. split; [|split; [apply newlines_iff; vm_compute; reflexivity|apply read_text_ok; exact H2]].
      apply path_file_iff. split; [discriminate|]. eexists. split; vm_compute; reflexivity. }
  split; [exact F|]. assert (G := paths_grammatical _ _ _ _ F). split.
  { apply (bundle_accepted_iff _ _ G). revert H1 H2. vm_compute read_text. intros H1 H2. injection H1 as <-. injection H2 as <-. eexists. vm_compute. reflexivity. }
  split; [split|].
  - intros v [<-|[]] (c & X). discriminate X.
  - intros m n _ _ [(l & X)|[X|[]]]; discriminate X.
  - do 2 eexists. split; vm_compute; reflexivity.
Qed.
