(** * Property C108: the texts on disk when the process is finished *)
From Verif Require Import Base PyNum PyStr Ast CCommon GenBinary GenCosmos Main Source Spec_Grammar Spec_Gen Spec_Check Spec_Bundle Spec_Runs Spec_Cosmos Spec_History
  Cli Spec_Cli Status Tree Spec_Tree Spec_Failures Spec_Done Spec_Letters Spec_Target Source_proofs Cli_proofs Start_proofs Tree_proofs Tree2_proofs Tree3_proofs Done_proofs
  Target_proofs Ondisk_proofs Props_Cli Props_Tree Props_Done.
Open Scope string_scope.

(** C108.  When the process finishes with cfs, c or binary, the files on disk
    are exactly these: in the output folder the files of every module that the
    input files spell, each with its one text (Spec_Letters); and every file
    elsewhere that was there before, with the text it had. *)
Theorem C108_tree : forall fuel cwd words t t' a dir names vs e ms, command_line words a dir -> config_command names (command_of a) ->
  is_folder t cwd -> leads cwd dir vs e -> Forall2 (path_spells t cwd) (input_paths a) ms ->
  start_in fuel cwd words t = (t', Some Finished) ->
  forall l c, file_at t' l c <->
    (exists m f, In m ms /\ l = (e ++ [f])%list /\ Spec_Letters.file_text (command_of a) ms m f c)
    \/ (~ output_place e (command_of a) ms l /\ file_at t l c).
Proof. exact whole_tree. Qed.
Print Assumptions C108_tree.

(** With cosmos the file of the target is the former one with the one text of
    Spec_Target appended. *)
Theorem C108_cosmos : forall fuel cwd words t t' paths mn msgs out dir ms q vs e n, command_line words (ArgsCosmos paths mn msgs out) dir ->
  is_folder t cwd -> Forall2 (path_spells t cwd) paths ms ->
  (if startswith "/" out then q = out ++ ".txt" else in_folder dir (out ++ ".txt") q) -> leads_in cwd q vs e n ->
  no_addresses ms mn (split_commas msgs) ->
  start_in fuel cwd words t = (t', Some Finished) ->
  (forall l, is_folder t' l <-> is_folder t l \/ In l vs)
  /\ forall l c, file_at t' l c <->
    (l = (e ++ [n])%list /\ exists old new, (file_at t l old \/ old = "" /\ ~ is_file t l)
       /\ is_telemetry ms mn (split_commas msgs) out new /\ c = old ++ new)
    \/ (l <> (e ++ [n])%list /\ file_at t l c).
Proof. exact whole_cosmos. Qed.
Print Assumptions C108_cosmos.

(** The texts depend on the modules and the command alone: two finished
    processes, wherever they run, however their paths are written and whatever
    else is on disk, write the same texts. *)
Theorem C108_same : forall fuel1 cwd1 words1 t1 t1' a1 dir1 vs1 e1 fuel2 cwd2 words2 t2 t2' a2 dir2 vs2 e2 names ms,
  command_line words1 a1 dir1 -> command_line words2 a2 dir2 -> config_command names (command_of a1) -> command_of a1 = command_of a2 ->
  is_folder t1 cwd1 -> leads cwd1 dir1 vs1 e1 -> Forall2 (path_spells t1 cwd1) (input_paths a1) ms ->
  is_folder t2 cwd2 -> leads cwd2 dir2 vs2 e2 -> Forall2 (path_spells t2 cwd2) (input_paths a2) ms ->
  start_in fuel1 cwd1 words1 t1 = (t1', Some Finished) -> start_in fuel2 cwd2 words2 t2 = (t2', Some Finished) ->
  forall f c, output_place e1 (command_of a1) ms (e1 ++ [f])%list -> (file_at t1' (e1 ++ [f])%list c <-> file_at t2' (e2 ++ [f])%list c).
Proof. exact whole_same. Qed.
Print Assumptions C108_same.

(** The hypotheses of [C108_tree] hold in [C104_sample]; the two processes of
    this one run in different folders. *)
Definition other_tree : node := Dir [("b.asn", File small_text); ("a.h", Dir [])].
Example C108_same_sample : let words1 := ["generate-c"; "in/../in/a.asn"; "--asn1-modules=a"; "--output-dir"; "./out/gen/"] in
  let words2 := ["generate-c"; "b.asn"; "--output-dir=gen"; "--asn1-modules=a"] in
  exists a1 dir1 vs1 e1 t1' a2 dir2 vs2 e2 t2' m,
  command_line words1 a1 dir1 /\ command_line words2 a2 dir2 /\ config_command ["a"] (command_of a1) /\ command_of a1 = command_of a2
  /\ is_folder sample_tree ["home"] /\ leads ["home"] dir1 vs1 e1 /\ Forall2 (path_spells sample_tree ["home"]) (input_paths a1) [m]
  /\ is_folder other_tree [] /\ leads [] dir2 vs2 e2 /\ Forall2 (path_spells other_tree []) (input_paths a2) [m]
  /\ start_in 9 ["home"] words1 sample_tree = (t1', Some Finished) /\ start_in 9 [] words2 other_tree = (t2', Some Finished)
  /\ output_place e1 (command_of a1) [m] (e1 ++ ["a.h"])%list.
Proof.
  intros words1 words2.
  assert (P : exists m, read_text small_text = Ok m) by (vm_compute; eauto). destruct P as (m & Hm).
  exists (ArgsC ["in/../in/a.asn"] "a"), "./out/gen/", [["home"]; ["home"; "out"]; ["home"; "out"; "gen"]; ["home"; "out"; "gen"]], ["home"; "out"; "gen"].
  eexists. exists (ArgsC ["b.asn"] "a"), "gen", [["gen"]], ["gen"]. eexists. exists m.
  split; [apply parse_args_iff; reflexivity|]. split; [apply parse_args_iff; reflexivity|]. split; [right; left; reflexivity|]. split; [reflexivity|].
  split; [eexists; reflexivity|]. split; [apply leads_iff; vm_compute; auto|]. split.
  { constructor; [|constructor]. exists small_text, small_text.
    split; [|split; [apply newlines_iff; vm_compute; reflexivity|apply read_text_ok; exact Hm]].
    apply path_file_iff. split; [discriminate|]. eexists. split; vm_compute; reflexivity. }
  split; [eexists; reflexivity|]. split; [apply leads_iff; vm_compute; auto|]. split.
  { constructor; [|constructor]. exists small_text, small_text.
    split; [|split; [apply newlines_iff; vm_compute; reflexivity|apply read_text_ok; exact Hm]].
    apply path_file_iff. split; [discriminate|]. eexists. split; vm_compute; reflexivity. }
  split; [vm_compute; reflexivity|]. split; [vm_compute; reflexivity|].
  exists m, "a.h". split; [left; reflexivity|]. split; [|reflexivity]. revert Hm. vm_compute read_text. intros Hm. injection Hm as <-. left. reflexivity.
Qed.

(** A run of cosmos on the same tree. *)
Example C108_cosmos_sample : let words := ["generate-cosmos"; "in/a.asn"; "--asn1-module=a"; "--asn1-messages=M"; "--output-file-name=tlm/T"; "--output-dir=out"] in
  let vs := [["home"; "out"]; ["home"; "out"; "tlm"]] in let e := ["home"; "out"; "tlm"] in
  exists paths mn msgs out dir m q t', command_line words (ArgsCosmos paths mn msgs out) dir
  /\ is_folder sample_tree ["home"] /\ Forall2 (path_spells sample_tree ["home"]) paths [m]
  /\ (if startswith "/" out then q = out ++ ".txt" else in_folder dir (out ++ ".txt") q) /\ leads_in ["home"] q vs e "T.txt"
  /\ no_addresses [m] mn (split_commas msgs)
  /\ start_in 9 ["home"] words sample_tree = (t', Some Finished).
Proof.
  intros words vs e. destruct C80_sample as (Ld & _). fold vs e in Ld.
  assert (P : exists m, read_text small_text = Ok m) by (vm_compute; eauto). destruct P as (m & Hm).
  exists ["in/a.asn"], "a", "M", "tlm/T", "out", m, "out/tlm/T.txt". eexists.
  split; [apply parse_args_iff; reflexivity|]. split; [eexists; reflexivity|]. split.
  { constructor; [|constructor]. exists small_text, small_text.
    split; [|split; [apply newlines_iff; vm_compute; reflexivity|apply read_text_ok; exact Hm]].
    apply path_file_iff. split; [discriminate|]. eexists. split; vm_compute; reflexivity. }
  split; [cbn; apply Start_proofs.join_in; [intros (x & X); discriminate X|reflexivity]|]. split; [exact Ld|]. split; [|vm_compute; reflexivity].
  revert Hm. vm_compute read_text. intros Hm. injection Hm as <-.
  apply addresses_avoided; [repeat constructor; cbn; intuition|].
  intros k w c d m' (d0 & m0 & w0 & D0 & M0 & W0 & _). cbn in D0. destruct D0 as [<-|[]]. cbn in M0. destruct M0 as [<-|[]]. discriminate W0.
Qed.
