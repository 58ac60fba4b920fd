(** * Proofs: from input files to output files (C87) *)
From Coq Require Import Permutation Lia.
From Verif Require Import Base PyNum PyStr Ast Processor Bundle Sorter CCommon GenCfs GenC GenBinary GenCosmos Main Source Spec_Grammar Spec_Syntax Spec_Source Spec_Gen
  Spec_Check Spec_Bundle Spec_Runs Lib_proofs Runs_proofs Syntax3_proofs Source_proofs Cli Spec_Cli Tree Spec_Tree Tree3_proofs
  Spec_Enum Spec_C Spec_Header Header3_proofs Spec_Num Spec_Binary Binary_proofs Spec_Files Spec_Text Spec_Cfs Cfs_proofs Run_proofs.
Open Scope string_scope.
Open Scope list_scope.

(** A run that finishes. *)
Lemma finished : forall fuel cwd words t t' a dir names vs e, command_line words a dir -> config_command names (command_of a) ->
  is_folder t cwd -> leads cwd dir vs e -> start_in fuel cwd words t = (t', Some Finished) ->
  exists ms files, Forall2 (path_spells t cwd) (input_paths a) ms /\ Forall (fun m => grammatical m = true) ms
    /\ run fuel (command_of a) ms [] = (files, Ok tt)
    /\ forall n c, folder_get files n = Some c -> file_at t' (e ++ [n]) c.
Proof.
  intros fuel cwd words t t' a dir names vs e L Hc W Ld S.
  destruct (proj1 (tree_finishes fuel cwd words t a dir names vs e L Hc W Ld)) as (ms & files & Sp & R & Nf & Nt); [rewrite S; reflexivity|].
  exists ms, files. split; [exact Sp|]. assert (G := paths_grammatical _ _ _ _ Sp). split; [exact G|]. split; [exact R|].
  assert (V := pr_valid _ _ (proj1 (run_needs names ms G (command_of a) fuel [] Hc ltac:(rewrite R; reflexivity)))).
  destruct (tree_places fuel cwd words t a dir names ms vs e L Hc W Sp V Ld) as (files' & r & t2 & x & R' & S' & _ & K).
  rewrite R in R'. injection R' as <- <-. rewrite S in S'. injection S' as <- <-. apply K; assumption.
Qed.

Theorem whole_headers : forall fuel cwd words t t' a dir names vs e, command_line words a dir -> config_command names (command_of a) ->
  is_folder t cwd -> leads cwd dir vs e -> start_in fuel cwd words t = (t', Some Finished) ->
  exists ms, Forall2 (path_spells t cwd) (input_paths a) ms /\ forall m, In m ms -> quiet m ->
    exists text h order dss, file_at t' (e ++ [header_name (command_of a) (mod_name m)]) text /\ read_header text = Some h
      /\ h_decls h = concat dss ++ variables_said (command_of a) order
      /\ Permutation order (mod_defs m) /\ Forall2 (definition_said (definitions ms)) order dss.
Proof.
  intros fuel cwd words t t' a dir names vs e L Hc W Ld S. destruct (finished _ _ _ _ _ _ _ _ _ _ L Hc W Ld S) as (ms & files & Sp & G & R & F).
  exists ms. split; [exact Sp|]. intros m M Q.
  destruct (header_declares names (command_of a) fuel ms [] files m Hc G R M Q) as (text & h & order & dss & std & T & Rd & _ & _ & _ & D & P & _ & Sd).
  exists text, h, order, dss. split; [apply F; exact T|]. auto.
Qed.

Theorem whole_images : forall fuel cwd words t t' a dir names en vs e, command_line words a dir -> command_of a = GenerateBinary names (Some en) ->
  is_folder t cwd -> leads cwd dir vs e -> start_in fuel cwd words t = (t', Some Finished) ->
  exists ms, Forall2 (path_spells t cwd) (input_paths a) ms /\ forall m n c l k w, In m ms -> In (DSequence n c l) (mod_defs m) -> last_clause l k w ->
    exists s b, file_at t' (e ++ [(lowerize (c_name n) ++ ".bin")%string]) s /\ byte_string s b
      /\ clause_image (definitions ms) (mod_defs m) en (m_type k) w b
      /\ (complete_in_order (mod_defs m) (m_type k) w -> struct_image (definitions ms) (mod_defs m) en (m_type k) w b).
Proof.
  intros fuel cwd words t t' a dir names en vs e L Ha W Ld S.
  assert (Hc : config_command names (command_of a)) by (rewrite Ha; right; right; eauto).
  destruct (finished _ _ _ _ _ _ _ _ _ _ L Hc W Ld S) as (ms & files & Sp & G & R & F). rewrite Ha in R.
  exists ms. split; [exact Sp|]. intros m n c l k w M D Lc.
  destruct (binary_written names fuel ms [] files en m n c l k w G R M D Lc) as (s & b & T & B & Im).
  exists s, b. split; [apply F; exact T|]. split; [exact B|]. split; [exact Im|]. intros Co.
  destruct (binary_written_struct names fuel ms [] files en m n c l k w G R M D Lc Co) as (s' & b' & T' & B' & Im').
  rewrite T in T'. injection T' as <-. assert (b = b') as ->; [|exact Im']. destruct B as (_ & <-), B' as (_ & <-); reflexivity.
Qed.

Theorem whole_message_ids : forall fuel cwd words t t' a dir names vs e, command_line words a dir -> command_of a = GenerateCfs names ->
  is_folder t cwd -> leads cwd dir vs e -> start_in fuel cwd words t = (t', Some Finished) ->
  exists ms, Forall2 (path_spells t cwd) (input_paths a) ms /\ forall m n cm l k w h items, In m ms -> In (DSequence n cm l) (mod_defs m) ->
    In k l -> m_with k = Some w -> In (EHeader h) (clause_entries w) -> Spec_Cfs.header_of h items -> NoDup (map wi_key items) -> Spec_Cfs.fits (identification items) ->
    exists p q s, file_at t' (e ++ [(c_name (mod_name m) ++ "_msgids.h")%string]) (p ++ "#define " ++ upper (c_name n) ++ "_MID (0x" ++ s ++ ")" ++ NL ++ q)%string
      /\ read_hex s = Some (message_id (identification items)).
Proof.
  intros fuel cwd words t t' a dir names vs e L Ha W Ld S.
  assert (Hc : config_command names (command_of a)) by (rewrite Ha; left; reflexivity).
  destruct (finished _ _ _ _ _ _ _ _ _ _ L Hc W Ld S) as (ms & files & Sp & G & R & F). rewrite Ha in R.
  exists ms. split; [exact Sp|]. intros m n cm l k w h items M D K Wk He Ho Nd Fi.
  destruct (mid_written names fuel ms [] files m n cm l k w h items G R M D K Wk He Ho Nd Fi) as (p & q & s & T & _ & Rd).
  exists p, q, s. split; [apply F; exact T|exact Rd].
Qed.
