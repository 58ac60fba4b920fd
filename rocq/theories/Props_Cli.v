(** * Properties C62-C65: command lines and whole runs *)
From Coq Require Import Lia.
From Verif Require Import Base PyStr Ast GenBinary Main Source Spec_Grammar Spec_Syntax Spec_Source Spec_Gen Spec_Files Spec_Num Spec_Check
  Spec_Bundle Spec_Order Spec_Size Spec_Layout Spec_Cfs Spec_Binary Spec_Runs Spec_Cosmos Spec_Cosmos_runs Spec_History
  Cli Spec_Cli Source_proofs Cli_proofs Start_proofs Runs_proofs Runs2_proofs Cosmos_runs_proofs Props_Syntax.
Open Scope string_scope.

(** C62: argparse, as configured, accepts exactly the command lines of
    Spec_Cli, and takes from them what they ask for. *)
Theorem C62_command_lines : forall words a dir, Forall (fun w => ~ drops_value w) words ->
  (parse_args words = Some (a, dir) <-> command_line words a dir).
Proof. intros words a dir _. exact (parse_args_iff words a dir). Qed.
Print Assumptions C62_command_lines.

(** Options may follow or precede the paths and be abbreviated; the last
    occurrence counts.  Paths on both sides of an option are not accepted. *)
Example C62_sample :
  parse_args ["generate-binary"; "--asn1=x"; "a.asn"; "b.asn"; "--output-dir"; "out"; "--asn1-modules"; "a,b"; "--end"; "big-endian"]
  = Some (ArgsBinary ["a.asn"; "b.asn"] "a,b" (Some BigEndian), "out")
  /\ command_line ["generate-c"; "a.asn"; "--asn1-modules=a"] (ArgsC ["a.asn"] "a") "output/c"
  /\ parse_args ["generate-c"; "a.asn"; "--asn1-modules"; "a,b"; "b.asn"] = None
  /\ parse_args ["generate-cosmos"; "a.asn"; "--asn1-m"; "a"; "--asn1-messages"; "M"; "--output-file-name"; "x"] = None.
Proof. split; [reflexivity|]. split; [apply parse_args_iff; reflexivity|]. split; reflexivity. Qed.

(** C63: a command line that is not accepted changes nothing, *)
Theorem C63_stops : forall fuel words fsys, Forall (fun w => ~ drops_value w) words ->
  (~ exists a dir, command_line words a dir) -> start fuel words fsys = (fsys, None).
Proof. intros fuel words fsys _. exact (start_stops fuel words fsys). Qed.
Print Assumptions C63_stops.

(** nor do input files that spell no modules. *)
Theorem C63_unreadable : forall fuel words fsys a dir, command_line words a dir ->
  (~ exists ms, Forall2 (file_spells fsys) (input_paths a) ms) -> exists e, start fuel words fsys = (fsys, Some (Err e)).
Proof. exact start_unreadable. Qed.
Print Assumptions C63_unreadable.

(** Otherwise cfs, c and binary place the files of the run in the output
    folder and change no other file, *)
Theorem C63_places : forall fuel words fsys a dir names ms, command_line words a dir ->
  config_command names (command_of a) -> Forall2 (file_spells fsys) (input_paths a) ms ->
  exists files r fsys', run fuel (command_of a) ms [] = (files, r) /\ start fuel words fsys = (fsys', Some r)
    /\ (forall n c, folder_get files n = Some c -> plain_name n
          /\ forall q, in_folder dir n q -> folder_get fsys' q = Some c)
    /\ (forall q, (forall n c, folder_get files n = Some c -> ~ in_folder dir n q) -> folder_get fsys' q = folder_get fsys q).
Proof. exact start_config. Qed.
Print Assumptions C63_places.

(** and cosmos appends to one file, or fails and changes nothing. *)
Theorem C63_appends : forall fuel words fsys paths m msgs out dir ms, command_line words (ArgsCosmos paths m msgs out) dir ->
  Forall2 (file_spells fsys) paths ms ->
  (exists text fsys', run fuel (GenerateCosmos m (split_commas msgs) out) ms [] = ([(out ++ ".txt", text)], Ok tt)
     /\ start fuel words fsys = (fsys', Some (Ok tt))
     /\ forall q, (if startswith "/" out then q = out ++ ".txt" else in_folder dir (out ++ ".txt") q) ->
          folder_get fsys' q = Some (match folder_get fsys q with Some old => old | None => "" end ++ text)
          /\ forall q', q' <> q -> folder_get fsys' q' = folder_get fsys q')
  \/ exists r, r <> Ok tt /\ run fuel (GenerateCosmos m (split_commas msgs) out) ms [] = ([], r)
     /\ start fuel words fsys = (fsys, Some r).
Proof. exact start_cosmos. Qed.
Print Assumptions C63_appends.

Definition small_text : string := "Module-a DEFINITIONS AUTOMATIC TAGS ::= BEGIN" ++ NL ++ "M ::= SEQUENCE { x INTEGER(0..255) }" ++ NL ++ "END".
Example C63_sample :
  (exists m, file_spells [("in/a.asn", small_text)] "in/a.asn" m)
  /\ map fst (fst (start 9 ["generate-c"; "in/a.asn"; "--asn1-modules=a"; "--output-dir"; "gen/"] [("in/a.asn", small_text)]))
     = ["in/a.asn"; "gen/a.h"; "gen/a.c"]
  /\ snd (start 9 ["generate-c"; "in/a.asn"; "--asn1-modules=a"] [("in/a.asn", small_text)]) = Some (Ok tt)
  /\ map fst (fst (start 9 ["generate-cosmos"; "--asn1-module=a"; "--asn1-messages=M"; "--output-file-name=T"; "--"; "in/a.asn"]
                      [("in/a.asn", small_text)]))
     = ["in/a.asn"; "output/cosmos/T.txt"].
Proof.
  split; [|vm_compute; auto]. eexists. exists small_text, small_text. split; [reflexivity|].
  split; [apply newlines_iff; vm_compute; reflexivity|]. apply read_text_ok. vm_compute. reflexivity.
Qed.

(** C64.  Full statement: only files directly in the output folder change.  It
    holds of cfs, c and binary, and of cosmos if the file name has no "/": *)
Theorem C64_in_folder_partial : forall fuel words fsys a dir fsys' r q, command_line words a dir ->
  (forall paths m msgs out, a = ArgsCosmos paths m msgs out -> ~ exists x y, out = x ++ "/" ++ y) ->
  start fuel words fsys = (fsys', r) -> folder_get fsys' q <> folder_get fsys q ->
  exists n, in_folder dir n q /\ ~ exists x y, n = x ++ "/" ++ y.
Proof. exact start_in_folder. Qed.
Print Assumptions C64_in_folder_partial.

(** It is false of cosmos: --output-file-name may leave the folder. *)
Theorem C64_in_folder_refuted : exists words fsys a dir fsys' q, command_line words a dir
  /\ start 9 words fsys = (fsys', Some (Ok tt)) /\ folder_get fsys' q <> folder_get fsys q
  /\ (forall n, ~ in_folder dir n q).
Proof.
  exists ["generate-cosmos"; "a.asn"; "--asn1-module=a"; "--asn1-messages=M"; "--output-file-name=/T"], [("a.asn", small_text)].
  eexists. exists "output/cosmos". eexists. exists "/T.txt".
  split; [apply parse_args_iff; reflexivity|]. split; [vm_compute; reflexivity|].
  split; [vm_compute; discriminate|]. intros n [(_ & H)|(_ & _ & H)]; discriminate.
Qed.
Print Assumptions C64_in_folder_refuted.

(** C65: when a run succeeds, in terms of the command line and the texts of
    the input files. *)
Theorem C65_c_succeeds : forall words fsys paths names dir, names <> [] -> Forall no_comma names ->
  command_line words (ArgsC paths (String.concat "," names)) dir ->
  (forall fuel, snd (start fuel words fsys) = Some (Ok tt) ->
     exists ms, Forall2 (file_spells fsys) paths ms /\ processable names ms)
  /\ (forall ms, Forall2 (file_spells fsys) paths ms -> processable names ms ->
      forall fuel, (S (length ms + length (definitions ms)) <= fuel)%nat -> snd (start fuel words fsys) = Some (Ok tt)).
Proof. exact start_c. Qed.
Print Assumptions C65_c_succeeds.

Theorem C65_cfs_succeeds : forall words fsys paths names dir, names <> [] -> Forall no_comma names ->
  command_line words (ArgsCfs paths (String.concat "," names)) dir ->
  (forall fuel, snd (start fuel words fsys) = Some (Ok tt) ->
     exists ms, Forall2 (file_spells fsys) paths ms /\ processable names ms /\ cfs_processable ms)
  /\ (forall ms, Forall2 (file_spells fsys) paths ms -> processable names ms -> cfs_processable ms ->
      forall fuel, (S (length ms + length (definitions ms)) <= fuel)%nat -> snd (start fuel words fsys) = Some (Ok tt)).
Proof. exact start_cfs. Qed.
Print Assumptions C65_cfs_succeeds.

Theorem C65_binary_succeeds : forall words fsys paths names e dir, names <> [] -> Forall no_comma names ->
  command_line words (ArgsBinary paths (String.concat "," names) e) dir ->
  (forall fuel, snd (start fuel words fsys) = Some (Ok tt) ->
     exists ms, Forall2 (file_spells fsys) paths ms /\ processable names ms /\ binary_processable e ms)
  /\ (forall ms, Forall2 (file_spells fsys) paths ms -> processable names ms -> binary_processable e ms ->
      forall fuel, (S (length ms + length (definitions ms)) <= fuel)%nat -> snd (start fuel words fsys) = Some (Ok tt)).
Proof. exact start_binary. Qed.
Print Assumptions C65_binary_succeeds.

(** For all clauses (see C88) and also for several modules of one name. *)
Theorem C65_cosmos_succeeds : forall words fsys paths m msgs out dir, msgs <> [] -> Forall no_comma msgs ->
  command_line words (ArgsCosmos paths m (String.concat "," msgs) out) dir ->
  (forall fuel, snd (start fuel words fsys) = Some (Ok tt) ->
     exists ms, Forall2 (file_spells fsys) paths ms /\ cosmos_runs m msgs ms)
  /\ (forall ms, Forall2 (file_spells fsys) paths ms -> cosmos_runs m msgs ms ->
      exists F, forall fuel, (F <= fuel)%nat -> snd (start fuel words fsys) = Some (Ok tt)).
Proof. exact start_cosmos_iff. Qed.
Print Assumptions C65_cosmos_succeeds.

Example C65_sample : exists ms,
  command_line ["generate-c"; "a.asn"; "--asn1-modules=a"] (ArgsC ["a.asn"] (String.concat "," ["a"])) "output/c"
  /\ Forall2 (file_spells [("a.asn", small_text)]) ["a.asn"] ms /\ processable ["a"] ms.
Proof.
  assert (L : command_line ["generate-c"; "a.asn"; "--asn1-modules=a"] (ArgsC ["a.asn"] (String.concat "," ["a"])) "output/c")
    by (apply parse_args_iff; reflexivity).
  destruct (C65_c_succeeds _ [("a.asn", small_text)] _ ["a"] _ ltac:(discriminate) ltac:(repeat constructor) L) as (H & _).
  destruct (H 9%nat ltac:(vm_compute; reflexivity)) as (ms & F & P). eauto.
Qed.

Example C65_cosmos_sample : exists ms,
  command_line ["generate-cosmos"; "a.asn"; "--asn1-module=a"; "--asn1-messages=M"; "--output-file-name=out"] (ArgsCosmos ["a.asn"] "a" (String.concat "," ["M"]) "out") "output/cosmos"
  /\ Forall2 (file_spells [("a.asn", small_text)]) ["a.asn"] ms /\ cosmos_runs "a" ["M"] ms.
Proof.
  assert (L : command_line ["generate-cosmos"; "a.asn"; "--asn1-module=a"; "--asn1-messages=M"; "--output-file-name=out"]
    (ArgsCosmos ["a.asn"] "a" (String.concat "," ["M"]) "out") "output/cosmos") by (apply parse_args_iff; reflexivity).
  destruct (C65_cosmos_succeeds _ [("a.asn", small_text)] _ "a" ["M"] _ _ ltac:(discriminate) ltac:(repeat constructor) L) as (H & _).
  destruct (H 9%nat ltac:(vm_compute; reflexivity)) as (ms & F & P). eauto.
Qed.
