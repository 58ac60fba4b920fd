(** * Property C104: when a run is finished, and what it leaves *)
From Coq Require Import NArith.
From Verif Require Import Base PyStr Ast CCommon GenBinary Main Source Spec_Grammar Spec_Gen Spec_Check Spec_Bundle Spec_Runs Spec_History
  Cli Spec_Cli Status Tree Spec_Tree Spec_Failures Spec_Done Source_proofs Cli_proofs Tree_proofs Tree2_proofs Tree3_proofs Done_proofs Props_Cli Props_Tree.
Open Scope string_scope.

(** C104.  The exit code of cfs, c and binary is 0 exactly if the input files
    spell modules that suit the command, no file is in the way of a folder on
    the way to the output folder, and no folder has the name of a file to be
    written. *)
Theorem C104_success : forall cwd words t a dir names vs e, command_line words a dir -> config_command names (command_of a) ->
  is_folder t cwd -> leads cwd dir vs e ->
  (forall fuel, exit_code fuel cwd words t = Some 0%N ->
     exists ms, Forall2 (path_spells t cwd) (input_paths a) ms /\ suits (command_of a) ms /\ room t vs e (command_of a) ms)
  /\ (forall ms, Forall2 (path_spells t cwd) (input_paths a) ms -> suits (command_of a) ms -> room t vs e (command_of a) ms ->
      forall fuel, (S (length ms + length (definitions ms)) <= fuel)%nat -> exit_code fuel cwd words t = Some 0%N).
Proof. exact done_iff. Qed.
Print Assumptions C104_success.

Theorem C104_cosmos : forall cwd words t paths m msgs out dir q vs e n, command_line words (ArgsCosmos paths m msgs out) dir ->
  is_folder t cwd -> (if startswith "/" out then q = (out ++ ".txt")%string else in_folder dir (out ++ ".txt") q) -> leads_in cwd q vs e n ->
  (forall fuel, exit_code fuel cwd words t = Some 0%N ->
     exists ms, Forall2 (path_spells t cwd) paths ms /\ cosmos_runs m (split_commas msgs) ms
       /\ (forall v, In v vs -> ~ is_file t v) /\ ~ taken t vs e n)
  /\ (forall ms, Forall2 (path_spells t cwd) paths ms -> cosmos_runs m (split_commas msgs) ms ->
      (forall v, In v vs -> ~ is_file t v) -> ~ taken t vs e n ->
      exists F, forall fuel, (F <= fuel)%nat -> exit_code fuel cwd words t = Some 0%N).
Proof. exact done_cosmos. Qed.
Print Assumptions C104_cosmos.

(** Then the folders of the tree are the former ones and those on the way to
    the output folder, the files of every module are there (Spec_Failures), and
    all other files are as before. *)
Theorem C104_tree : forall fuel cwd words t t' a dir names vs e ms, command_line words a dir -> config_command names (command_of a) ->
  is_folder t cwd -> leads cwd dir vs e -> Forall2 (path_spells t cwd) (input_paths a) ms ->
  start_in fuel cwd words t = (t', Some Finished) ->
  (forall l, is_folder t' l <-> is_folder t l \/ In l vs)
  /\ (forall l, output_place e (command_of a) ms l -> is_file t' l)
  /\ forall l c, ~ output_place e (command_of a) ms l -> (file_at t' l c <-> file_at t l c).
Proof. exact done_tree. Qed.
Print Assumptions C104_tree.

(** The same command given again finishes and changes nothing, if no input file
    is one of the files written. *)
Theorem C104_again : forall fuel cwd words t t' a dir names vs e ms, command_line words a dir -> config_command names (command_of a) ->
  is_folder t cwd -> leads cwd dir vs e -> Forall2 (path_spells t cwd) (input_paths a) ms -> inputs_apart cwd (input_paths a) e (command_of a) ms ->
  start_in fuel cwd words t = (t', Some Finished) ->
  exists t'', start_in fuel cwd words t' = (t'', Some Finished)
    /\ forall l, (is_folder t'' l <-> is_folder t' l) /\ forall c, (file_at t'' l c <-> file_at t' l c).
Proof. exact done_again. Qed.
Print Assumptions C104_again.

(** Otherwise the input file can be lost. *)
Theorem C104_again_refuted : exists words t t' x, start_in 9 [] words t = (t', Some Finished) /\ start_in 9 [] words t' = (t', Some x)
  /\ x <> Finished.
Proof.
  exists ["generate-c"; "a.h"; "--asn1-modules=a"; "--output-dir=."], (Dir [("a.h", File small_text)]).
  eexists. eexists. split; [vm_compute; reflexivity|]. split; [vm_compute; reflexivity|discriminate].
Qed.
Print Assumptions C104_again_refuted.

Example C104_sample : let words := ["generate-c"; "in/../in/a.asn"; "--asn1-modules=a"; "--output-dir"; "./out/gen/"] in
  let vs := [["home"]; ["home"; "out"]; ["home"; "out"; "gen"]; ["home"; "out"; "gen"]] in let e := ["home"; "out"; "gen"] in
  exists a dir ms t', command_line words a dir /\ config_command ["a"] (command_of a) /\ is_folder sample_tree ["home"] /\ leads ["home"] dir vs e
  /\ Forall2 (path_spells sample_tree ["home"]) (input_paths a) ms /\ suits (command_of a) ms /\ room sample_tree vs e (command_of a) ms
  /\ inputs_apart ["home"] (input_paths a) e (command_of a) ms /\ start_in 9 ["home"] words sample_tree = (t', Some Finished)
  /\ exit_code 9 ["home"] words sample_tree = Some 0%N.
Proof.
  intros words vs e. destruct C79_sample as ((m & Pm) & Ld & _). fold words vs e in Ld.
  assert (L : command_line words (ArgsC ["in/../in/a.asn"] "a") "./out/gen/") by (apply parse_args_iff; reflexivity).
  assert (Hc : config_command ["a"] (command_of (ArgsC ["in/../in/a.asn"] "a"))) by (right; left; reflexivity).
  assert (C : is_folder sample_tree ["home"]) by (eexists; reflexivity).
  assert (F : Forall2 (path_spells sample_tree ["home"]) ["in/../in/a.asn"] [m]) by (constructor; [exact Pm|constructor]).
  assert (Z : exit_code 9 ["home"] words sample_tree = Some 0%N) by (vm_compute; reflexivity).
  destruct (proj1 (done_iff _ _ _ _ _ _ _ _ L Hc C Ld) 9%nat Z) as (ms & F' & S & R).
  assert ([m] = ms) as <- by (eapply spelled_unique; [exact F|exact F']).
  exists (ArgsC ["in/../in/a.asn"] "a"), "./out/gen/", [m]. destruct (start_in 9 ["home"] words sample_tree) as [t' x] eqn:St. exists t'.
  split; [exact L|]. split; [exact Hc|]. split; [exact C|]. split; [exact Ld|]. split; [exact F|]. split; [exact S|]. split; [exact R|].
  split; [|split; [|exact Z]].
  - intros p vs' e' n' [<-|[]] (l & ps & St' & Nm & Ps) (m' & n & _ & _ & E). apply app_inj_tail in E as (-> & _).
    apply starts_iff in St'. apply split_slash_iff in Nm. cbn in St', Nm.
    assert (ps = ["in"; ".."; "in"] /\ n' = "a.asn") as (-> & ->).
    { change ["in"; ".."; "in"; "a.asn"] with (["in"; ".."; "in"] ++ ["a.asn"])%list in Nm. apply app_inj_tail in Nm. destruct Nm; auto. }
    apply Tree_proofs.passes_iff in Ps as (_ & Q). subst l. discriminate Q.
  - apply (finished_zero 9 ["home"] words sample_tree _ _ L) in Z. rewrite St in Z. cbn [snd] in Z. subst x. reflexivity.
Qed.
