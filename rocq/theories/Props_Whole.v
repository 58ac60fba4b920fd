(** * Property C87: from input files to output files *)
From Coq Require Import Permutation.
From Verif Require Import Base PyNum PyStr Ast CCommon GenBinary Main Source Spec_Grammar Spec_Syntax Spec_Source Spec_Gen Spec_Enum Spec_Check Spec_Bundle
  Spec_C Spec_Header Spec_Printed Spec_Text Spec_Cfs Spec_Num Spec_Binary Cli Spec_Cli Tree Spec_Tree Source_proofs Cli_proofs Tree2_proofs Whole_proofs.
From Verif Require Spec_Files Spec_Cosmos Spec_Telemetry Spec_History Spec_Reread Whole2_proofs.
Open Scope string_scope.

(** C87: what a finished run leaves on disk, in terms of the command line and
    of the modules the input files spell.  The header of each module declares
    what its definitions say.  Missing: comments that do harm, see C57. *)
Theorem C87_headers_partial : forall fuel cwd words t t' a dir names vs e, command_line words a dir -> config_command names (command_of a) ->
  is_folder t cwd -> leads cwd dir vs e -> start_in fuel cwd words t = (t', Some Finished) ->
  exists ms, Forall2 (path_spells t cwd) (input_paths a) ms /\ forall m, In m ms -> quiet m ->
    exists text h order dss, file_at t' (e ++ [header_name (command_of a) (mod_name m)])%list text /\ read_header text = Some h
      /\ h_decls h = (concat dss ++ variables_said (command_of a) order)%list
      /\ Permutation order (mod_defs m) /\ Forall2 (definition_said (definitions ms)) order dss.
Proof. exact whole_headers. Qed.
Print Assumptions C87_headers_partial.

(** The text of the headers, whatever the comments contain. *)
Theorem C87_header_text : forall fuel cwd words t t' a dir names vs e, command_line words a dir -> config_command names (command_of a) ->
  is_folder t cwd -> leads cwd dir vs e -> start_in fuel cwd words t = (t', Some Finished) ->
  exists ms, Forall2 (path_spells t cwd) (input_paths a) ms /\ forall m, In m ms ->
    exists order pieces std notes,
      file_at t' (e ++ [header_name (command_of a) (mod_name m)])%list (header_text (command_of a) m order std notes (map snd pieces))
      /\ Permutation order (mod_defs m)
      /\ Forall2 (note_printed (command_of a) ms) order notes
      /\ Forall2 (fun d p => definition_printed (definitions ms) d (fst p) (snd p)) order pieces
      /\ ((std = "#include <stdint.h>" ++ NL /\ exists x, In x (concat (map fst pieces)) /\ uses_stdint x)
          \/ (std = "" /\ ~ exists x, In x (concat (map fst pieces)) /\ uses_stdint x)).
Proof. exact Whole2_proofs.whole_header_text. Qed.
Print Assumptions C87_header_text.

(** The .bin file of each sequence with a clause is the image of the last
    clause, and of the struct if the clause names every member in order.
    Missing: other clauses, see C39. *)
Theorem C87_images_partial : forall fuel cwd words t t' a dir names en vs e, command_line words a dir -> command_of a = GenerateBinary names (Some en) ->
  is_folder t cwd -> leads cwd dir vs e -> start_in fuel cwd words t = (t', Some Finished) ->
  exists ms, Forall2 (path_spells t cwd) (input_paths a) ms /\ forall m n c l k w, In m ms -> In (DSequence n c l) (mod_defs m) -> last_clause l k w ->
    exists s b, file_at t' (e ++ [(lowerize (c_name n) ++ ".bin")%string])%list s /\ byte_string s b
      /\ clause_image (definitions ms) (mod_defs m) en (m_type k) w b
      /\ (complete_in_order (mod_defs m) (m_type k) w -> struct_image (definitions ms) (mod_defs m) en (m_type k) w b).
Proof. exact whole_images. Qed.
Print Assumptions C87_images_partial.

(** The msgids file of each module defines the message IDs. *)
Theorem C87_message_ids : forall fuel cwd words t t' a dir names vs e, command_line words a dir -> command_of a = GenerateCfs names ->
  is_folder t cwd -> leads cwd dir vs e -> start_in fuel cwd words t = (t', Some Finished) ->
  exists ms, Forall2 (path_spells t cwd) (input_paths a) ms /\ forall m n cm l k w h items, In m ms -> In (DSequence n cm l) (mod_defs m) ->
    In k l -> m_with k = Some w -> In (EHeader h) (clause_entries w) -> Spec_Cfs.header_of h items -> NoDup (map wi_key items) -> Spec_Cfs.fits (identification items) ->
    exists p q s, file_at t' (e ++ [(c_name (mod_name m) ++ "_msgids.h")%string])%list (p ++ "#define " ++ upper (c_name n) ++ "_MID (0x" ++ s ++ ")" ++ NL ++ q)
      /\ read_hex s = Some (message_id (identification items)).
Proof. exact whole_message_ids. Qed.
Print Assumptions C87_message_ids.

(** The telemetry file has, after the packets it had, one packet per message
    with one item per leaf.  Missing: comments with quotes or backslashes and
    messages with several clauses on a member, see C69. *)
Theorem C87_telemetry_partial : forall fuel cwd words t t' paths mn msgs out dir q vs e n, command_line words (ArgsCosmos paths mn msgs out) dir ->
  is_folder t cwd -> (if startswith "/" out then q = (out ++ ".txt")%string else in_folder dir (out ++ ".txt") q) -> leads_in cwd q vs e n ->
  Spec_Cosmos.word out -> start_in fuel cwd words t = (t', Some Finished) ->
  exists inp ms, Forall2 (path_spells t cwd) paths inp /\ Forall2 same_module inp ms
    /\ forall i m, Spec_Cosmos.first_named ms i m -> mod_name m = mn ->
       Spec_Cosmos.one_clause_each ms i m (split_commas msgs) -> Spec_Telemetry.quiet_messages ms i m (split_commas msgs) ->
       exists ps, Forall2 (Spec_Telemetry.packet_of ms i m out) (split_commas msgs) ps
         /\ forall old before, (file_at t (e ++ [n])%list old \/ old = "" /\ ~ is_file t (e ++ [n])%list) ->
            Spec_Telemetry.ended old -> Spec_Telemetry.read_telemetry old = Some before ->
            exists text, file_at t' (e ++ [n])%list text /\ Spec_Telemetry.ended text
              /\ Spec_Telemetry.read_telemetry text = Some (before ++ ps)%list.
Proof. exact Whole2_proofs.whole_telemetry. Qed.
Print Assumptions C87_telemetry_partial.

(** The same whatever the clauses say, with the values of C88.  Missing:
    comments with quotes or backslashes and clauses given to a leaf. *)
Theorem C87_telemetry_given_partial : forall fuel cwd words t t' paths mn msgs out dir q vs e n, command_line words (ArgsCosmos paths mn msgs out) dir ->
  is_folder t cwd -> (if startswith "/" out then q = (out ++ ".txt")%string else in_folder dir (out ++ ".txt") q) -> leads_in cwd q vs e n ->
  Spec_Cosmos.word out -> start_in fuel cwd words t = (t', Some Finished) ->
  exists inp ms, Forall2 (path_spells t cwd) paths inp /\ Forall2 same_module inp ms
    /\ forall i m, Spec_Cosmos.first_named ms i m -> mod_name m = mn ->
       exists oss hs, Spec_History.messages_occur ms i m 0 (split_commas msgs) oss /\ Spec_History.handed_on (concat oss) hs
       /\ (Spec_Reread.readable m (split_commas msgs) hs (concat oss) ->
          exists ps, Spec_Reread.packets_given m out hs (split_commas msgs) oss ps
          /\ forall old before, (file_at t (e ++ [n])%list old \/ old = "" /\ ~ is_file t (e ++ [n])%list) ->
             Spec_Telemetry.ended old -> Spec_Telemetry.read_telemetry old = Some before ->
             exists text, file_at t' (e ++ [n])%list text /\ Spec_Telemetry.ended text
               /\ Spec_Telemetry.read_telemetry text = Some (before ++ ps)%list).
Proof. exact Whole2_proofs.whole_telemetry_given. Qed.
Print Assumptions C87_telemetry_given_partial.

(** A file with a message that fixes its identification, and the four
    commands on it. *)
Definition whole_text : string :=
  "Module-m DEFINITIONS AUTOMATIC TAGS ::= BEGIN" ++ NL ++
  "Id ::= SEQUENCE { packet-version-number INTEGER(0..255), application-process-identifier INTEGER(0..65535) }" ++ NL ++
  "Prim ::= SEQUENCE { packet-identification Id }" ++ NL ++
  "Head ::= SEQUENCE { primary Prim }" ++ NL ++
  "Msg ::= SEQUENCE { head Head (WITH COMPONENTS { primary (WITH COMPONENTS { packet-identification (WITH COMPONENTS {" ++
  " packet-version-number (1), application-process-identifier (5) }) }) }) }" ++ NL ++ "END".
Definition whole_tree : node := Dir [("home", Dir [("m.asn", File whole_text)])].
Definition options (cmd : string) : list string := [cmd; "m.asn"; "--asn1-modules=m"; "--output-dir=out"].
Definition identity : wcomps := WC None [WI "packet-version-number" (VInt 1) None; WI "application-process-identifier" (VInt 5) None].
Definition primary_clause : wcomps := WC None [WI "packet-identification" (VWith identity) None].
Definition whole_clause : wcomps := WC None [WI "primary" (VWith primary_clause) None].
Definition head_member : member := mkmember "head" (TName "Head") None (Some whole_clause).
Definition whole_module : module :=
  mkmodule "m" None [] None
    [DSequence "Id" None [mkmember "packet-version-number" (TInteger (Some (0, 255)%Z)) None None;
                          mkmember "application-process-identifier" (TInteger (Some (0, 65535)%Z)) None None];
     DSequence "Prim" None [mkmember "packet-identification" (TName "Id") None None];
     DSequence "Head" None [mkmember "primary" (TName "Prim") None None];
     DSequence "Msg" None [head_member]].
Lemma whole_spelt : path_spells whole_tree ["home"] "m.asn" whole_module.
Proof.
  exists whole_text, whole_text. split; [|split; [apply newlines_iff; vm_compute; reflexivity|apply read_text_ok; vm_compute; reflexivity]].
  apply path_file_iff. split; [discriminate|]. eexists. split; vm_compute; reflexivity.
Qed.
Lemma whole_leads : leads ["home"] "out" [["home"; "out"]] ["home"; "out"].
Proof. apply leads_iff; vm_compute; auto. Qed.
Definition after (words : list string) : node := fst (start_in 12 ["home"] words whole_tree).
Definition ends (words : list string) : option ending := snd (start_in 12 ["home"] words whole_tree).

Example C87_headers_sample :
  command_line (options "generate-c") (ArgsC ["m.asn"] "m") "out" /\ config_command ["m"] (command_of (ArgsC ["m.asn"] "m"))
  /\ is_folder whole_tree ["home"] /\ quiet whole_module /\ ends (options "generate-c") = Some Finished
  /\ exists text, file_at (after (options "generate-c")) ["home"; "out"; "m.h"] text
     /\ option_map (fun h => length (h_decls h)) (read_header text) = Some 5%nat.
Proof.
  split; [apply parse_args_iff; reflexivity|]. split; [right; left; reflexivity|].
  split; [eexists; vm_compute; reflexivity|]. split; [vm_compute; repeat constructor|]. split; [vm_compute; reflexivity|].
  eexists. split; vm_compute; reflexivity.
Qed.

Example C87_message_ids_sample :
  command_line (options "generate-cfs") (ArgsCfs ["m.asn"] "m") "out" /\ command_of (ArgsCfs ["m.asn"] "m") = GenerateCfs ["m"]
  /\ ends (options "generate-cfs") = Some Finished
  /\ In (DSequence "Msg" None [head_member]) (mod_defs whole_module) /\ m_with head_member = Some whole_clause
  /\ In (EHeader primary_clause) (clause_entries whole_clause)
  /\ Spec_Cfs.header_of primary_clause (match identity with WC _ l => l end)
  /\ NoDup (map wi_key (match identity with WC _ l => l end)) /\ Spec_Cfs.fits (identification (match identity with WC _ l => l end))
  /\ message_id (identification (match identity with WC _ l => l end)) = 8197%Z /\ read_hex "2005" = Some 8197%Z.
Proof.
  split; [apply parse_args_iff; reflexivity|]. split; [reflexivity|]. split; [vm_compute; reflexivity|].
  split; [do 3 right; left; reflexivity|]. split; [reflexivity|]. split; [left; reflexivity|]. split; [do 3 eexists; reflexivity|].
  split; [repeat constructor; cbn; intuition discriminate|]. split; [vm_compute; intuition discriminate|]. split; vm_compute; reflexivity.
Qed.

Example C87_images_sample : let words := ["generate-binary"; "m.asn"; "--asn1-modules=m"; "--endianness=big-endian"; "--output-dir=out"] in
  command_line words (ArgsBinary ["m.asn"] "m" (Some BigEndian)) "out"
  /\ command_of (ArgsBinary ["m.asn"] "m" (Some BigEndian)) = GenerateBinary ["m"] (Some BigEndian)
  /\ ends words = Some Finished /\ last_clause [head_member] head_member whole_clause
  /\ exists s, file_at (after words) ["home"; "out"; "msg.bin"] s /\ byte_string s [1; 0; 5]%Z.
Proof.
  intros words. split; [apply parse_args_iff; reflexivity|]. split; [reflexivity|]. split; [vm_compute; reflexivity|].
  split; [exists [], []; split; [reflexivity|split; [reflexivity|intros y []]]|].
  eexists. split; [vm_compute; reflexivity|]. split; [repeat constructor; discriminate|reflexivity].
Qed.

Example C87_telemetry_sample :
  let words := ["generate-cosmos"; "m.asn"; "--asn1-module=m"; "--asn1-messages=Msg"; "--output-file-name=T"; "--output-dir=out"] in
  command_line words (ArgsCosmos ["m.asn"] "m" "Msg" "T") "out" /\ in_folder "out" "T.txt" "out/T.txt"
  /\ leads_in ["home"] "out/T.txt" [["home"; "out"]] ["home"; "out"] "T.txt" /\ Spec_Cosmos.word "T" /\ ends words = Some Finished
  /\ exists text, file_at (after words) ["home"; "out"; "T.txt"] text
     /\ option_map (fun l => map (fun p => length (Spec_Telemetry.p_items p)) l) (Spec_Telemetry.read_telemetry text) = Some [2%nat].
Proof.
  intros words. split; [apply parse_args_iff; reflexivity|]. split; [right; split; [discriminate|]; split; [intros d H|reflexivity]; destruct d as [|? [|? [|? [|]]]]; discriminate|].
  split; [exists ["home"], ["out"]; split; [apply starts_iff; reflexivity|]; split; [apply split_slash_iff; reflexivity|];
    apply Tree_proofs.passes_iff; split; reflexivity|].
  split; [split; [discriminate|]; repeat split; intros [H|[]]; discriminate|]. split; [vm_compute; reflexivity|]. eexists. split; vm_compute; reflexivity.
Qed.

(** Two clauses for one member, and two messages. *)
Definition twice_text : string :=
  "Module-m DEFINITIONS AUTOMATIC TAGS ::= BEGIN" ++ NL ++
  "In ::= SEQUENCE { a INTEGER(0..255), b INTEGER(0..255) }" ++ NL ++
  "Mid ::= SEQUENCE { in In (WITH COMPONENTS { a (1) }) }" ++ NL ++
  "One ::= SEQUENCE { mid Mid (WITH COMPONENTS { in (WITH COMPONENTS { b (2) }) }) }" ++ NL ++
  "Two ::= SEQUENCE { mid Mid }" ++ NL ++ "END".
Example C87_telemetry_given_sample :
  let words := ["generate-cosmos"; "m.asn"; "--asn1-module=m"; "--asn1-messages=One,Two"; "--output-file-name=T"; "--output-dir=out"] in
  let t := Dir [("home", Dir [("m.asn", File twice_text)])] in
  command_line words (ArgsCosmos ["m.asn"] "m" "One,Two" "T") "out"
  /\ exists t' text, start_in 12 ["home"] words t = (t', Some Finished) /\ file_at t' ["home"; "out"; "T.txt"] text
     /\ option_map (map (fun p => map Spec_Telemetry.t_role (Spec_Telemetry.p_items p))) (Spec_Telemetry.read_telemetry text)
        = Some [[Spec_Telemetry.Id "1"; Spec_Telemetry.Id "2"]; [Spec_Telemetry.Id "1"; Spec_Telemetry.Id "2"]].
Proof.
  intros words t. split; [apply parse_args_iff; reflexivity|]. do 2 eexists. split; [vm_compute; reflexivity|]. split; vm_compute; reflexivity.
Qed.
