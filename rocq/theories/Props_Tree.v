(** * Properties C79, C80: runs on a directory tree *)
From Verif Require Import Base PyStr Ast GenBinary Main Source Spec_Grammar Spec_Syntax Spec_Source Spec_Gen Spec_Check Spec_Bundle
  Cli Spec_Cli Tree Spec_Tree Source_proofs Cli_proofs Tree2_proofs Tree3_proofs Props_Cli.
Open Scope string_scope.

(** C79: what the program does to a directory tree.  A command line that is
    not accepted, input files that cannot be read, and an invalid bundle leave
    the tree as it was: not even the output folder is created. *)
Theorem C79_stops : forall fuel cwd words t, Forall (fun w => ~ drops_value w) words ->
  (~ exists a dir, command_line words a dir) -> start_in fuel cwd words t = (t, None).
Proof. intros fuel cwd words t _. exact (tree_stops fuel cwd words t). Qed.
Print Assumptions C79_stops.

Theorem C79_unreadable : forall fuel cwd words t a dir, command_line words a dir ->
  (~ exists ms, Forall2 (path_spells t cwd) (input_paths a) ms) ->
  exists x, start_in fuel cwd words t = (t, Some x) /\ (os_error x \/ x = Reported \/ exists e, x = Raised e).
Proof. exact tree_unreadable. Qed.
Print Assumptions C79_unreadable.

Theorem C79_rejected : forall fuel cwd words t a dir names ms, command_line words a dir -> config_command names (command_of a) ->
  Forall2 (path_spells t cwd) (input_paths a) ms -> ~ bundle_valid names ms ->
  exists x, start_in fuel cwd words t = (t, Some x) /\ (x = Reported \/ exists e, x = Raised e).
Proof. exact tree_rejected. Qed.
Print Assumptions C79_rejected.

(** Otherwise the folders on the way to the output folder are created, also if
    no file is written, and the files of the run are in it; no other file
    changes.  A file in the way, or a folder with the name of a file, is an
    error of the operating system. *)
Theorem C79_places : forall fuel cwd words t a dir names ms vs e, command_line words a dir -> config_command names (command_of a) ->
  is_folder t cwd -> Forall2 (path_spells t cwd) (input_paths a) ms -> bundle_valid names ms -> leads cwd dir vs e ->
  exists files r t' x, run fuel (command_of a) ms [] = (files, r) /\ start_in fuel cwd words t = (t', Some x)
    /\ ((exists v, In v vs /\ is_file t v) -> os_error x /\ only_folders t t' vs)
    /\ ((forall v, In v vs -> ~ is_file t v) -> adds_folders t t' vs /\ same_but t t' e (map fst files)
        /\ ((exists n, In n (map fst files) /\ taken t vs e n) -> os_error x)
        /\ ((forall n, In n (map fst files) -> ~ taken t vs e n) -> shows r x
            /\ forall n c, folder_get files n = Some c -> file_at t' (e ++ [n])%list c)).
Proof. exact tree_places. Qed.
Print Assumptions C79_places.

(** When a run finishes. *)
Theorem C79_finishes : forall fuel cwd words t a dir names vs e, command_line words a dir -> config_command names (command_of a) ->
  is_folder t cwd -> leads cwd dir vs e ->
  (snd (start_in fuel cwd words t) = Some Finished <->
   exists ms files, Forall2 (path_spells t cwd) (input_paths a) ms /\ run fuel (command_of a) ms [] = (files, Ok tt)
     /\ (forall v, In v vs -> ~ is_file t v) /\ forall n, In n (map fst files) -> ~ taken t vs e n).
Proof. exact tree_finishes. Qed.
Print Assumptions C79_finishes.

(** The folder out/gen is made beside the folder in. *)
Definition sample_tree : node := Dir [("home", Dir [("in", Dir [("a.asn", File small_text)]); ("out", Dir [("x", File "old")])])].
Example C79_sample : let words := ["generate-c"; "in/../in/a.asn"; "--asn1-modules=a"; "--output-dir"; "./out/gen/"] in
  (exists m, path_spells sample_tree ["home"] "in/../in/a.asn" m)
  /\ leads ["home"] "./out/gen/" [["home"]; ["home"; "out"]; ["home"; "out"; "gen"]; ["home"; "out"; "gen"]] ["home"; "out"; "gen"]
  /\ snd (start_in 9 ["home"] words sample_tree) = Some Finished
  /\ (exists c d, fst (start_in 9 ["home"] words sample_tree)
       = Dir [("home", Dir [("in", Dir [("a.asn", File small_text)]); ("out", Dir [("x", File "old"); ("gen", Dir [("a.h", File c); ("a.c", File d)])])])])
  /\ start_in 9 ["home"] ["generate-c"; "in/a.asn"; "--asn1-modules=b"] sample_tree = (sample_tree, Some Reported)
  /\ start_in 9 ["home"] ["generate-c"; "in/a.asn"; "--asn1-modules=a"; "--output-dir=out/x"] sample_tree = (sample_tree, Some (OsRaised FileExists)).
Proof.
  split; [|split; [apply leads_iff; vm_compute; auto|]].
  - eexists. exists small_text, small_text. split; [|split; [apply newlines_iff; vm_compute; reflexivity|apply read_text_ok; vm_compute; reflexivity]].
    apply path_file_iff. split; [discriminate|]. eexists. split; vm_compute; reflexivity.
  - split; [vm_compute; reflexivity|]. split; [|vm_compute; auto]. eexists. eexists. vm_compute. reflexivity.
Qed.

(** C80: cosmos makes its packets first.  If that fails the tree stays as it
    was; otherwise the folder of the file is created and the packets are
    appended. *)
Theorem C80_appends : forall fuel cwd words t paths m msgs out dir ms q vs e n, command_line words (ArgsCosmos paths m msgs out) dir ->
  is_folder t cwd -> Forall2 (path_spells t cwd) paths ms ->
  (if startswith "/" out then q = (out ++ ".txt")%string else in_folder dir (out ++ ".txt") q) -> leads_in cwd q vs e n ->
  (exists r x, run fuel (GenerateCosmos m (split_commas msgs) out) ms [] = ([], r) /\ r <> Ok tt /\ shows r x
     /\ start_in fuel cwd words t = (t, Some x))
  \/ exists text t' x, run fuel (GenerateCosmos m (split_commas msgs) out) ms [] = ([((out ++ ".txt")%string, text)], Ok tt)
    /\ start_in fuel cwd words t = (t', Some x)
    /\ ((exists v, In v vs /\ is_file t v) -> os_error x /\ only_folders t t' vs)
    /\ ((forall v, In v vs -> ~ is_file t v) -> adds_folders t t' vs /\ same_but t t' e [n]
        /\ (taken t vs e n -> os_error x)
        /\ (~ taken t vs e n -> x = Finished /\ exists old, (file_at t (e ++ [n])%list old \/ old = "" /\ ~ is_file t (e ++ [n])%list)
            /\ file_at t' (e ++ [n])%list (old ++ text)%string)).
Proof. exact tree_cosmos. Qed.
Print Assumptions C80_appends.

(** No run deletes a file or a folder. *)
Theorem C80_nothing_deleted : forall fuel cwd words t t' x, is_folder t cwd -> start_in fuel cwd words t = (t', x) ->
  (forall l, is_folder t l -> is_folder t' l) /\ (forall l, is_file t l -> is_file t' l).
Proof. exact tree_keeps. Qed.
Print Assumptions C80_nothing_deleted.

Example C80_sample : let words := ["generate-cosmos"; "in/a.asn"; "--asn1-module=a"; "--asn1-messages=M"; "--output-file-name=tlm/T"; "--output-dir=out"] in
  leads_in ["home"] "out/tlm/T.txt" [["home"; "out"]; ["home"; "out"; "tlm"]] ["home"; "out"; "tlm"] "T.txt"
  /\ snd (start_in 9 ["home"] words sample_tree) = Some Finished
  /\ (exists c, let t := fst (start_in 9 ["home"] words sample_tree) in
        file_at t ["home"; "out"; "tlm"; "T.txt"] c
        /\ file_at (fst (start_in 9 ["home"] words t)) ["home"; "out"; "tlm"; "T.txt"] (c ++ c))
  /\ fst (start_in 9 ["home"] ["generate-cosmos"; "in/a.asn"; "--asn1-module=a"; "--asn1-messages=N"; "--output-file-name=tlm/T"; "--output-dir=out"] sample_tree)
     = sample_tree.
Proof.
  split.
  - exists ["home"], ["out"; "tlm"]. split; [apply starts_iff; reflexivity|]. split; [apply split_slash_iff; reflexivity|].
    apply Tree_proofs.passes_iff. split; reflexivity.
  - split; [vm_compute; reflexivity|]. split; [eexists; split; vm_compute; reflexivity|vm_compute; reflexivity].
Qed.
