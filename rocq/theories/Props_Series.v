(** * Property C111: several runs into one folder *)
From Verif Require Import Base PyNum PyStr Ast Bundle CCommon GenBinary Main Source Spec_Grammar Spec_Check Spec_Bundle Spec_Gen Spec_Files Spec_Failures Spec_Letters Spec_Series
  Cli Spec_Cli Status Tree Spec_Tree Spec_Runs Spec_Done Spec_Processes
  Source_proofs Bundle_proofs Cli_proofs Tree_proofs Tree2_proofs Tree3_proofs Series_proofs Processes_proofs Props_Failures Props_Cli Props_Half.
Open Scope string_scope.
Open Scope list_scope.

(** C111.  Whatever runs of cfs, c and binary were made, and however each of them
    ended, a file has its text from before or the one text that the
    specification gives it for one of the runs. *)
Theorem C111_texts : forall xs fs fs', Forall run_given xs -> series xs fs fs' -> forall f text, folder_get fs' f = Some text ->
  folder_get fs f = Some text
  \/ exists fuel cmd input m, In (fuel, cmd, input) xs /\ In m input /\ Spec_Letters.file_text cmd input m f text.
Proof. exact series_texts. Qed.
Print Assumptions C111_texts.

(** No file disappears, and files of other names stay as they are. *)
Theorem C111_kept : forall xs fs fs', Forall run_given xs -> series xs fs fs' ->
  forall f, folder_get fs f <> None -> folder_get fs' f <> None.
Proof. exact series_kept. Qed.
Print Assumptions C111_kept.
Theorem C111_untouched : forall xs fs fs', Forall run_given xs -> series xs fs fs' ->
  forall f, (forall x, In x xs -> ~ names_file x f) -> folder_get fs' f = folder_get fs f.
Proof. exact series_untouched. Qed.
Print Assumptions C111_untouched.

(** A run that succeeds after them would have succeeded without them, and its own
    files are as if they had never been made. *)
Theorem C111_recovered : forall xs fs fs1 names cmd fuel input fs2, Forall run_given xs -> series xs fs fs1 ->
  config_command names cmd -> Forall (fun m => grammatical m = true) input -> run fuel cmd input fs1 = (fs2, Ok tt) ->
  exists fs', run fuel cmd input fs = (fs', Ok tt)
    /\ forall f, names_file (fuel, cmd, input) f \/ (forall x, In x xs -> ~ names_file x f) -> folder_get fs2 f = folder_get fs' f.
Proof. exact series_recovered. Qed.
Print Assumptions C111_recovered.

(** The whole folder is, if it names all files that the earlier runs name. *)
Theorem C111_no_trace_partial : forall xs fs fs1 names cmd fuel input fs2, Forall run_given xs -> series xs fs fs1 ->
  config_command names cmd -> Forall (fun m => grammatical m = true) input -> run fuel cmd input fs1 = (fs2, Ok tt) ->
  (forall x f, In x xs -> names_file x f -> names_file (fuel, cmd, input) f) ->
  exists fs', run fuel cmd input fs = (fs', Ok tt) /\ same_files fs2 fs'.
Proof. exact series_no_trace. Qed.
Print Assumptions C111_no_trace_partial.

(** A run that fails at module b, and one on the corrected modules. *)
Definition mended_modules : list module :=
  [mkmodule "b" None [] None [DSequence "T" None [mkmember "value" (TInteger (Some (0, 7)%Z)) None None]];
   mkmodule "a" None [mkimport ["T"] "b" None] None
     [DSequence "S" None [mkmember "t" (TName "T") None None; mkmember "on" TBoolean None None]]].
Example C111_sample : let cmd := GenerateC ["b"; "a"] in let xs := [(5%nat, cmd, late_modules)] in exists fs1 fs2 e,
  Forall run_given xs /\ series xs [] fs1 /\ snd (run 5 cmd late_modules []) = Err e /\ fs1 <> []
  /\ config_command ["b"; "a"] cmd /\ Forall (fun m => grammatical m = true) mended_modules
  /\ run 5 cmd mended_modules fs1 = (fs2, Ok tt)
  /\ (forall x f, In x xs -> names_file x f -> names_file (5%nat, cmd, mended_modules) f).
Proof.
  intros cmd xs. do 3 eexists. split; [constructor; [|constructor]; split; [exists ["b"; "a"]; right; left; reflexivity|repeat constructor]|].
  split; [eapply series_run; [vm_compute; reflexivity|apply series_none]|]. split; [vm_compute; reflexivity|]. split; [discriminate|].
  split; [right; left; reflexivity|]. split; [repeat constructor|]. split; [vm_compute; reflexivity|].
  intros x f [<-|[]] (m & [<-|[<-|[]]] & Hf); [exists (nth 0 mended_modules (mkmodule "" None [] None []))|exists (nth 1 mended_modules (mkmodule "" None [] None []))];
    (split; [cbn; auto|exact Hf]).
Qed.

(** In general it is not: the files of a module that is gone stay. *)
Theorem C111_no_trace_refuted : exists xs fs1 cmd fuel input fs2 fs', Forall run_given xs /\ series xs [] fs1
  /\ config_command ["b"] cmd /\ Forall (fun m => grammatical m = true) input /\ run fuel cmd input fs1 = (fs2, Ok tt)
  /\ run fuel cmd input [] = (fs', Ok tt) /\ ~ same_files fs2 fs'.
Proof.
  exists [(5%nat, GenerateC ["b"; "a"], late_modules)]. eexists. exists (GenerateC ["b"]), 5%nat, (firstn 1 mended_modules). do 2 eexists.
  split; [constructor; [|constructor]; split; [exists ["b"; "a"]; right; left; reflexivity|repeat constructor]|].
  split; [eapply series_run; [vm_compute; reflexivity|apply series_none]|].
  split; [right; left; reflexivity|]. split; [repeat constructor|]. split; [vm_compute; reflexivity|]. split; [vm_compute; reflexivity|].
  intros S. specialize (S "a.h"). vm_compute in S. discriminate S.
Qed.
Print Assumptions C111_no_trace_refuted.

(** The same of processes on one disk, whose input files spell valid modules. *)
Theorem C111_disk_texts : forall xs t t', processes xs t t' -> forall l c, file_at t' l c ->
  file_at t l c
  \/ exists cmd e ms m f, In (cmd, e, ms) xs /\ In m ms /\ l = e ++ [f] /\ Spec_Letters.file_text cmd ms m f c.
Proof. exact processes_texts. Qed.
Print Assumptions C111_disk_texts.
Theorem C111_disk_untouched : forall xs t t', processes xs t t' -> forall l c,
  (forall cmd e ms, In (cmd, e, ms) xs -> ~ output_place e cmd ms l) -> (file_at t' l c <-> file_at t l c).
Proof. exact processes_untouched. Qed.
Print Assumptions C111_disk_untouched.
Theorem C111_disk_kept : forall xs t t', processes xs t t' ->
  (forall l, is_folder t l -> is_folder t' l) /\ forall l, is_file t l -> is_file t' l.
Proof. exact processes_kept. Qed.
Print Assumptions C111_disk_kept.

(** A process that hangs, and one that finishes, into the same folder. *)
Example C111_disk_sample : exists ms ms2 t2 c,
  processes [(GenerateC ["a"; "b"], ["out"], ms); (GenerateC ["a"], ["out"], ms2)] two_files t2 /\ ms2 <> [] /\ file_at t2 ["out"; "a.h"] c.
Proof.
  assert (P : exists m1 m2, read_text small_text = Ok m1 /\ read_text round_text = Ok m2) by (do 2 eexists; split; vm_compute; reflexivity).
  destruct P as (m1 & m2 & H1 & H2).
  assert (Q : exists t1, start_in 9 [] ["generate-c"; "a.asn"; "b.asn"; "--asn1-modules=a,b"; "--output-dir=out"] two_files = (t1, Some Hangs)) by (eexists; vm_compute; reflexivity).
  destruct Q as (t1 & Q). exists [m1; m2], [m1].
  assert (Q2 : exists t2 c, start_in 9 [] ["generate-c"; "a.asn"; "--asn1-modules=a"; "--output-dir=out"] t1 = (t2, Some Finished) /\ file_at t2 ["out"; "a.h"] c).
  { vm_compute in Q. injection Q as <-. do 2 eexists. split; vm_compute; reflexivity. }
  destruct Q2 as (t2 & c & Q2 & Q3). exists t2, c. split; [|split; [discriminate|exact Q3]].
  eapply processes_one; [|eapply processes_one; [|apply processes_none]].
  - exists 9%nat, [], ["generate-c"; "a.asn"; "b.asn"; "--asn1-modules=a,b"; "--output-dir=out"], (ArgsC ["a.asn"; "b.asn"] "a,b"), "out", ["a"; "b"], [["out"]], (Some Hangs).
    assert (F : Forall2 (path_spells two_files []) ["a.asn"; "b.asn"] [m1; m2]).
    { constructor; [|constructor; [|constructor]].
      - exists small_text, small_text. split; [|split; [apply newlines_iff; vm_compute; reflexivity|apply read_text_ok; exact H1]].
        apply path_file_iff. split; [discriminate|]. eexists. split; vm_compute; reflexivity.
      - exists round_text, round_text. split; [|split; [apply newlines_iff; vm_compute; reflexivity|apply read_text_ok; exact H2]].
        apply path_file_iff. split; [discriminate|]. eexists. split; vm_compute; reflexivity. }
    assert (G := paths_grammatical _ _ _ _ F).
    split; [apply parse_args_iff; reflexivity|]. split; [reflexivity|]. split; [right; left; reflexivity|]. split; [eexists; reflexivity|].
    split; [apply leads_iff; vm_compute; auto|]. split; [exact F|]. split; [|split; [|exact Q]].
    + apply (bundle_accepted_iff _ _ G). revert H1 H2. vm_compute read_text. intros H1 H2. injection H1 as <-. injection H2 as <-. eexists. vm_compute. reflexivity.
    + split; [intros v [<-|[]] (k & X); discriminate X|]. intros m n _ _ [(l & X)|[X|[]]]; discriminate X.
  - exists 9%nat, [], ["generate-c"; "a.asn"; "--asn1-modules=a"; "--output-dir=out"], (ArgsC ["a.asn"] "a"), "out", ["a"], [["out"]], (Some Finished).
    vm_compute in Q. injection Q as <-.
    match goal with |- context [is_folder ?t _] => assert (F : Forall2 (path_spells t []) ["a.asn"] [m1]) end.
    { constructor; [|constructor]. exists small_text, small_text. split; [|split; [apply newlines_iff; vm_compute; reflexivity|apply read_text_ok; exact H1]].
      apply path_file_iff. split; [discriminate|]. eexists. split; vm_compute; reflexivity. }
    assert (G := paths_grammatical _ _ _ _ F).
    split; [apply parse_args_iff; reflexivity|]. split; [reflexivity|]. split; [right; left; reflexivity|]. split; [eexists; reflexivity|].
    split; [apply leads_iff; vm_compute; auto|]. split; [exact F|]. revert H1. vm_compute read_text. intros H1. injection H1 as <-. split; [|split; [|exact Q2]].
    + apply (bundle_accepted_iff _ _ G). eexists. vm_compute. reflexivity.
    + split; [intros v [<-|[]] (k & X); discriminate X|].
      intros m n [<-|[]] [-> | ->] [(l & X)|[X|[]]]; vm_compute in X; discriminate X.
Qed.
