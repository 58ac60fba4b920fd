(** * Properties C69 to C71: COSMOS telemetry files can be read *)
From Coq Require Import Lia.
From Verif Require Import Base PyNum PyStr Ast Size Bundle GenCosmos Main Spec_Enum Spec_Grammar Spec_Num Spec_Check
  Spec_Bundle Spec_Size Spec_Cosmos Cosmos_proofs Cosmos_text_proofs Spec_Telemetry Telemetry_proofs Props_Cosmos.
Open Scope string_scope.
Open Scope list_scope.

(** ** C69: the file reads as the leaves of the messages *)

(** Each run adds one packet per message to those the file contains, and each
    packet has one item per leaf.  Missing: comments with quotes or
    backslashes, see the refutation, and messages with several clauses on a
    path, see C42. *)
Theorem C69_file_read_partial : forall fuel mn msgs target input fs fs', Forall (fun m => grammatical m = true) input -> word target ->
  run fuel (GenerateCosmos mn msgs target) input fs = (fs', Ok tt) ->
  exists ms, Forall2 same_module input ms
    /\ forall i m, first_named ms i m -> mod_name m = mn -> one_clause_each ms i m msgs -> quiet_messages ms i m msgs ->
       exists ps, Forall2 (packet_of ms i m target) msgs ps
         /\ forall old before, match folder_get fs (target ++ ".txt") with Some t => t | None => "" end = old ->
            ended old -> read_telemetry old = Some before ->
            exists text, folder_get fs' (target ++ ".txt") = Some text /\ ended text
              /\ read_telemetry text = Some (before ++ ps).
Proof. exact run_reads. Qed.
Print Assumptions C69_file_read_partial.

Lemma diamond_quiet : forall m, first_named (all_modules diamond_bundle) 0 m ->
  one_clause_each (all_modules diamond_bundle) 0 m ["Msg"] /\ quiet_messages (all_modules diamond_bundle) 0 m ["Msg"].
Proof.
  intros m F.
  assert (L : forall n cm l ls, In n ["Msg"] -> In (DSequence n cm l) (mod_defs m) ->
    packet_leaves (all_modules diamond_bundle) 0 [] l ls -> cm = Some (mkcomment "a message" "" false) /\ ls = diamond_leaves).
  { intros n cm l ls [<-|[]] Hd P. destruct F as (Fm & _). vm_compute in Fm. injection Fm as <-. vm_compute in Hd.
    destruct Hd as [Hd|[]]. injection Hd as <- <-. split; [reflexivity|].
    eapply leaves_unique; [right; exact diamond_built|exact P|exact diamond_packet]. }
  split; intros n cm l ls Hn Hd P; destruct (L n cm l ls Hn Hd P) as (-> & ->).
  - eapply Forall_impl; [|exact diamond_one_clause]. simpl. tauto.
  - split; [split; intros X; vm_compute in X; intuition discriminate|].
    repeat (apply Forall_cons; [split; intros X; vm_compute in X; intuition discriminate|]). constructor.
Qed.

Example C69_sample : Forall (fun m => grammatical m = true) diamond /\ word "out"
  /\ exists fs m text, run 9 (GenerateCosmos "top" ["Msg"] "out") diamond [] = (fs, Ok tt)
     /\ first_named (all_modules diamond_bundle) 0 m /\ mod_name m = "top"
     /\ one_clause_each (all_modules diamond_bundle) 0 m ["Msg"] /\ quiet_messages (all_modules diamond_bundle) 0 m ["Msg"]
     /\ folder_get fs "out.txt" = Some text
     /\ read_telemetry text = Some [mktpacket "out" "Msg" "a message"
          [mktitem (Id "0x1A") apid 7 "UINT" "" false [] None None;
           mktitem (Id "1") "on" 1 "UINT" "" false [("False", 0%Z); ("True", 1%Z)] None None;
           mktitem (Array 28) "a" 7 "UINT" "levels" true [] None (Some "m");
           mktitem Value "b" 2 "UINT" "" false [("off", 0%Z); ("on", 1%Z); ("auto", 2%Z)] None None]].
Proof.
  split; [exact diamond_grammatical|]. split; [split; [discriminate|apply pchar_plain; reflexivity]|].
  do 3 eexists. split; [vm_compute; reflexivity|]. split; [exact diamond_first|]. split; [vm_compute; reflexivity|].
  destruct (diamond_quiet _ diamond_first) as (A & B). split; [exact A|]. split; [exact B|].
  split; vm_compute; reflexivity.
Qed.

Definition one_message (l : list member) : list module := [mkmodule "m" None [] None [DSequence "S" None l]].

(** A comment with a quote is written as it is, and the file cannot be read. *)
Theorem C69_file_read_refuted : exists input fs text,
  Forall (fun m => grammatical m = true) input
  /\ run 9 (GenerateCosmos "m" ["S"] "out") input [] = (fs, Ok tt)
  /\ folder_get fs "out.txt" = Some text /\ read_telemetry text = None.
Proof.
  exists (one_message [mkmember "x" (TInteger (Some (0, 7)%Z)) (Some (mkcomment ("6" ++ DQUOTE ++ " pipe") "" false)) None]).
  do 2 eexists. split; [repeat constructor; vm_compute; reflexivity|].
  split; [vm_compute; reflexivity|]. split; vm_compute; reflexivity.
Qed.
Print Assumptions C69_file_read_refuted.

(** ** C70: the items of a packet have different names *)

(** They have iff the leaves have different keys, which the tool does not
    check. *)
Theorem C70_distinct_items_partial : forall fuel mn msgs target input fs fs', Forall (fun m => grammatical m = true) input -> word target ->
  run fuel (GenerateCosmos mn msgs target) input fs = (fs', Ok tt) -> folder_get fs (target ++ ".txt") = None ->
  exists ms, Forall2 same_module input ms
    /\ forall i m, first_named ms i m -> mod_name m = mn -> one_clause_each ms i m msgs -> quiet_messages ms i m msgs ->
       exists text ps, folder_get fs' (target ++ ".txt") = Some text /\ read_telemetry text = Some ps
         /\ Forall2 (fun n p => forall cm l ls, In (DSequence n cm l) (mod_defs m) -> packet_leaves ms i [] l ls ->
              (distinct_items p <-> distinct_keys ls)) msgs ps.
Proof. exact run_distinct. Qed.
Print Assumptions C70_distinct_items_partial.

(** A message with two members of one SEQUENCE type. *)
Theorem C70_distinct_items_refuted : exists input fs text p,
  Forall (fun m => grammatical m = true) input
  /\ run 9 (GenerateCosmos "m" ["S"] "out") input [] = (fs, Ok tt)
  /\ folder_get fs "out.txt" = Some text /\ read_telemetry text = Some [p] /\ ~ distinct_items p.
Proof.
  exists [mkmodule "m" None [] None
    [DSequence "S" None [mkmember "a" (TName "Point") None None; mkmember "b" (TName "Point") None None];
     DSequence "Point" None [mkmember "x" (TInteger (Some (0, 7)%Z)) None None]]].
  do 3 eexists. split; [repeat constructor; vm_compute; reflexivity|].
  split; [vm_compute; reflexivity|]. split; [vm_compute; reflexivity|]. split; [vm_compute; reflexivity|].
  intros N. vm_compute in N. rewrite !NoDup_cons_iff in N. cbn in N. tauto.
Qed.
Print Assumptions C70_distinct_items_refuted.

(** ** C71: the items of a packet are valid *)

(** They are iff the leaves satisfy [valid_leaf], which the tool does not
    check. *)
Theorem C71_valid_items_partial : forall fuel mn msgs target input fs fs', Forall (fun m => grammatical m = true) input -> word target ->
  run fuel (GenerateCosmos mn msgs target) input fs = (fs', Ok tt) -> folder_get fs (target ++ ".txt") = None ->
  exists ms, Forall2 same_module input ms
    /\ forall i m, first_named ms i m -> mod_name m = mn -> one_clause_each ms i m msgs -> quiet_messages ms i m msgs ->
       exists text ps, folder_get fs' (target ++ ".txt") = Some text /\ read_telemetry text = Some ps
         /\ Forall2 (fun n p => forall cm l ls, In (DSequence n cm l) (mod_defs m) -> packet_leaves ms i [] l ls ->
              (Forall valid_item (p_items p) <-> Forall valid_leaf ls)) msgs ps.
Proof. exact run_items. Qed.
Print Assumptions C71_valid_items_partial.

(** The sample's leaves are valid and have different keys. *)
Example C70_C71_sample : Forall valid_leaf diamond_leaves /\ distinct_keys diamond_leaves.
Proof.
  split.
  - repeat (apply Forall_cons; [unfold valid_leaf; cbn; repeat split; try lia; try discriminate|]). constructor.
  - unfold distinct_keys. cbn. repeat constructor; cbn; intuition discriminate.
Qed.

(** Messages that are accepted, but have an invalid item: an array of BOOLEAN
    shows size 0, an ENUMERATED with one item has 0 bits, so has INTEGER(0..0)
    and an empty string, an INTEGER may have more than 64 bits, and a component
    may be fixed to a value out of range. *)
Definition invalid_members : list (list member * list definition) :=
  [([mkmember "x" (TArray 4 TBoolean) None None], []);
   ([mkmember "x" (TName "E") None None], [DEnumerated "E" None [mkenum "only" None None]]);
   ([mkmember "x" (TInteger (Some (0, 0)%Z)) None None], []);
   ([mkmember "x" (TString IA5String 0) None None], []);
   ([mkmember "x" (TInteger (Some (0, 2 ^ 64)%Z)) None None], []);
   ([mkmember "x" (TName "P") None (Some (WC None [WI "y" (VInt 8) None]))],
    [DSequence "P" None [mkmember "y" (TInteger (Some (0, 7)%Z)) None None]])].

Theorem C71_valid_items_refuted : Forall (fun x => exists fs text p,
  let input := [mkmodule "m" None [] None (DSequence "S" None (fst x) :: snd x)] in
  Forall (fun m => grammatical m = true) input
  /\ run 9 (GenerateCosmos "m" ["S"] "out") input [] = (fs, Ok tt)
  /\ folder_get fs "out.txt" = Some text /\ read_telemetry text = Some [p] /\ ~ Forall valid_item (p_items p)) invalid_members.
Proof.
  unfold invalid_members.
  repeat (apply Forall_cons; [do 3 eexists; split; [repeat constructor; vm_compute; reflexivity|];
    split; [vm_compute; reflexivity|]; split; [vm_compute; reflexivity|]; split; [vm_compute; reflexivity|];
    intros V; cbn in V; rewrite Forall_cons_iff in V; destruct V as ((A & B & C) & _); cbn in A, B, C|]); [..|constructor].
  - destruct C as (C & _). lia.
  - lia.
  - lia.
  - lia.
  - lia.
  - destruct C as (z & C1 & C2). injection C1 as <-. lia.
Qed.
Print Assumptions C71_valid_items_refuted.
