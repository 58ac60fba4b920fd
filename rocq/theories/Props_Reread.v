From Coq Require Import Lia.
(** * Property C89: COSMOS telemetry files can be read, whatever the clauses say *)
From Verif Require Import Base PyNum PyStr Ast Size Bundle GenCosmos Main Spec_Enum Spec_Grammar Spec_Num Spec_Check
  Spec_Bundle Spec_Size Spec_Text Spec_Cosmos Cosmos_text_proofs Spec_Cosmos_runs Spec_Telemetry Spec_History Spec_Reread Reread_proofs
  Samples Props_Cosmos Props_Cosmos_runs Props_History.
Open Scope string_scope.
Open Scope list_scope.

(** Each run adds one packet per message to those the file contains.  Each
    packet has one item per leaf, with the value the rule of Spec_History
    gives it. *)
Theorem C89_file_read_partial : forall fuel mn msgs target input fs fs', Forall (fun m => grammatical m = true) input -> word target ->
  run fuel (GenerateCosmos mn msgs target) input fs = (fs', Ok tt) ->
  exists ms, Forall2 same_module input ms
    /\ forall i m, first_named ms i m -> mod_name m = mn ->
       exists oss hs, messages_occur ms i m 0 msgs oss /\ handed_on (concat oss) hs
       /\ (readable m msgs hs (concat oss) ->
          exists ps, packets_given m target hs msgs oss ps
          /\ forall old before, match folder_get fs (target ++ ".txt") with Some t => t | None => "" end = old ->
             ended old -> read_telemetry old = Some before ->
             exists text, folder_get fs' (target ++ ".txt") = Some text /\ ended text
               /\ read_telemetry text = Some (before ++ ps)).
Proof. exact run_rereads. Qed.
Print Assumptions C89_file_read_partial.

(** The items of these packets are valid iff the values are in range. *)
Theorem C89_valid_items : forall ms i m target n msgs oss hs ps, messages_occur ms i m n msgs oss ->
  packets_given m target hs msgs oss ps -> (forall o, In o (concat oss) -> is_leaf o = true -> forall w, value_of hs o <> Some (VWith w)) ->
  Forall2 (fun os p => (Forall valid_item (p_items p) <-> Forall (valid_occurrence hs) os)) oss ps.
Proof. exact items_valid. Qed.
Print Assumptions C89_valid_items.

(** In the example of C88 the value of the first message shows in the second. *)
Example C89_sample : exists fs text, Forall (fun m => grammatical m = true) [leak_apid] /\ word "out"
  /\ run 9 (GenerateCosmos "m" ["First"; "Second"] "out") [leak_apid] [] = (fs, Ok tt)
  /\ folder_get fs "out.txt" = Some text
  /\ read_telemetry text = Some (map (fun n => mktpacket "out" n ""
       [mktitem (Id "1") "x" 3 "UINT" "" false [] None None; mktitem (Id "0x02") apid 3 "UINT" "" false [] None None]) ["First"; "Second"]).
Proof.
  do 2 eexists. split; [repeat constructor|]. split; [split; [discriminate|apply pchar_plain; reflexivity]|].
  split; [vm_compute; reflexivity|]. split; vm_compute; reflexivity.
Qed.

Example C89_readable_sample : exists oss hs, messages_occur [leak_apid] 0 leak_apid 0 ["First"; "Second"] oss /\ handed_on (concat oss) hs
  /\ readable leak_apid ["First"; "Second"] hs (concat oss) /\ Forall (valid_occurrence hs) (concat oss).
Proof.
  exists leak_messages, leak_handed. destruct leak_history as (A & B). split; [exact A|]. split; [exact B|]. split; [split|].
  - intros n cm l Hn Hd. cbn in Hd. assert (cm = None) as -> by (intuition congruence). split; intros X; exact X.
  - intros o Ho Lo. cbn in Ho. repeat (destruct Ho as [<-|Ho]; [first [discriminate Lo|split; [split; intros X; exact X|intros w; vm_compute; discriminate]]|]). destruct Ho.
  - repeat (apply Forall_cons; [intros lf E; try discriminate E; injection E as <-; unfold valid_given; cbn; repeat split; try lia; try discriminate|]). constructor.
Qed.
