(** * Property C78: the cFS message ID and the COSMOS packet agree *)
From Coq Require Import Lia.
From Verif Require Import Base PyNum PyStr Ast Size Bundle CCommon GenCfs GenCosmos Main Spec_Enum Spec_Grammar Spec_Num Spec_Check
  Spec_Bundle Spec_Size Spec_Text Spec_Cfs Spec_Cosmos Cosmos_proofs Cosmos_text_proofs Spec_Telemetry Telemetry_proofs Spec_Ident Ident_proofs
  Samples Enum_proofs.
Open Scope string_scope.
Open Scope list_scope.

(** ** C78: COSMOS recognises packets with the message ID of the header *)

(** Both commands are run on the same modules.  A packet whose first 16 bits
    are the message ID defined in the cFS header has the values of the
    identification items of the COSMOS packet, and if the clause gives every
    integer field, no other 16 bits have.  Missing: BOOLEAN fields given as a
    number and the reverse, and fields out of range, see the refutation;
    messages with several clauses on a path (C42) and comments that cannot be
    read back (C69). *)
Theorem C78_recognised_partial : forall names fuel fuel' mn msgs target input fs out fs' out',
  Forall (fun m => grammatical m = true) input -> word target ->
  run fuel (GenerateCfs names) input fs = (out, Ok tt) ->
  run fuel' (GenerateCosmos mn msgs target) input fs' = (out', Ok tt) -> folder_get fs' (target ++ ".txt") = None ->
  exists ms, Forall2 same_module input ms
    /\ forall i m, first_named ms i m -> mod_name m = mn -> one_clause_each ms i m msgs -> quiet_messages ms i m msgs ->
       exists text ps, folder_get out' (target ++ ".txt") = Some text /\ read_telemetry text = Some ps
         /\ Forall2 (fun n p => p_name p = n
              /\ forall cm l ls k w xs items, In (DSequence n cm l) (mod_defs m) -> packet_leaves ms i [] l ls ->
                 In k l -> m_with k = Some w -> header_at w xs items -> Spec_Cfs.fits (identification items) -> header_leaves k xs ls ->
                 exists a b s id, folder_get out (c_name mn ++ "_msgids.h")
                      = Some (a ++ "#define " ++ upper (c_name n) ++ "_MID (0x" ++ s ++ ")" ++ NL ++ b)%string
                   /\ read_hex s = Some id /\ recognises p id (all_given items ls)) msgs ps.
Proof. exact runs_recognise. Qed.
Print Assumptions C78_recognised_partial.

(** The housekeeping packet of the sample. *)
Definition hk_module : module := nth 2 sample_modules integer_module.
Definition hk_members : list member := seq_children (nth 2 (mod_defs hk_module) (DSimple "" TNull None)).
Definition hk_clause : wcomps := match hk_members with k :: _ => match m_with k with Some w => w | None => WC None [] end | [] => WC None [] end.
Definition hk_items : list witem :=
  [WI "packet-version-number" (VInt 0) None; WI "packet-type-is-cmd" (VBool false) None;
   WI "sec-hdr-flag-is-present" (VBool true) None; WI "application-process-identifier" (VInt 153) None].

Lemma hk_visible : forall j m d, (j < 4)%nat -> nth_error sample_modules j = Some m -> In d (mod_defs m) -> visible sample_modules 2 d.
Proof.
  intros j m d L Hm Hd. exists j, m. split; [|auto].
  assert (I1 : imports_module sample_modules 2 1) by (eapply imports_computed; vm_compute; reflexivity).
  assert (I2 : imports_module sample_modules 2 3) by (eapply imports_computed; vm_compute; reflexivity).
  assert (I3 : imports_module sample_modules 1 0) by (eapply imports_computed; vm_compute; reflexivity).
  destruct j as [|[|[|[|j]]]]; [..|lia]; eauto using reaches_module.
Qed.

Ltac found := cbn [mod_defs]; solve [repeat (first [left; reflexivity|right])].
Ltac seen j := eapply (hk_visible j); [lia|vm_compute; reflexivity|found].
Ltac unsigned := eapply item_simple; [reflexivity|seen 3%nat|apply written_unsigned; [lia|apply bit_length_least; lia]].
Ltac real := eapply item_simple; [reflexivity|seen 2%nat|apply written_single; vm_compute; intuition discriminate].

Definition hk_sum (ls : list leaf) : Prop :=
  packet_leaves sample_modules 2 [] hk_members ls
  /\ header_leaves (nth 0 hk_members (mkmember "" TNull None None)) [] ls /\ all_given hk_items ls
  /\ Forall one_clause ls /\ Forall (fun lf => quiet (m_comment (lf_member lf))) ls.
Lemma hk_sample : exists ls, hk_sum ls.
Proof.
  eexists. split; [|split; [|split; [|split]]].
  {
  eapply pl_nested; [reflexivity|seen 1%nat| |].
  { eapply pl_nested; [reflexivity|seen 0%nat| |].
    { eapply pl_nested; [reflexivity|seen 0%nat| |].
      { apply pl_leaf; [unsigned|]. apply pl_leaf; [apply item_boolean; reflexivity|]. apply pl_leaf; [apply item_boolean; reflexivity|].
        apply pl_leaf; [unsigned|apply pl_nil]. }
      eapply pl_nested; [reflexivity|seen 0%nat| |].
      { apply pl_leaf; [eapply item_enum; [reflexivity|seen 0%nat|apply bit_length_least; cbn; lia]|]. apply pl_leaf; [unsigned|apply pl_nil]. }
      apply pl_leaf; [unsigned|apply pl_nil]. }
    eapply pl_nested; [reflexivity|seen 1%nat| |].
    { apply pl_leaf; [unsigned|apply pl_leaf; [unsigned|apply pl_nil]]. }
    apply pl_leaf; [unsigned|apply pl_nil]. }
  eapply pl_nested; [reflexivity|seen 2%nat| |apply pl_nil].
  repeat (apply pl_leaf; [first [real|unsigned]|]). apply pl_nil. }
  - exists [mkmember "primary" (TName "Ccsds-primary-header") None None; mkmember "packet-identification" (TName "Packet-identification") None None].
    do 5 eexists. split; [reflexivity|]. split; [reflexivity|].
    repeat split; try (vm_compute; reflexivity); try (left; reflexivity); try (right; reflexivity);
      intros v H; vm_compute in H; destruct H as [<-|[]]; reflexivity.
  - unfold all_given. cbn [firstn app]. repeat constructor; intros K; try discriminate K; vm_compute; auto.
  - cbn [app]. repeat apply Forall_cons; [..|apply Forall_nil];
      (split; [|intros w H; vm_compute in H; intuition discriminate]);
      intros p q E; cbn in E; repeat (destruct p as [|? p]; [|first [discriminate E|injection E as <- E]]);
      (match goal with |- context [clauses_at ?p] => let v := eval vm_compute in (clauses_at p) in change (clauses_at p) with v end);
      (split; [cbn; lia|]); repeat (first [apply Forall_nil|apply Forall_cons]); cbn [map wi_key];
      repeat (first [apply NoDup_nil|apply NoDup_cons]); cbn; intuition discriminate.
  - cbn [app]. repeat (apply Forall_cons; [split; intros H; vm_compute in H; intuition discriminate|]). constructor.
Qed.

Example C78_sample : Forall (fun m => grammatical m = true) sample_modules /\ word "out"
  /\ exists out out' text m ls p,
     run 9 (GenerateCfs sample_names) sample_modules [] = (out, Ok tt)
     /\ run 9 (GenerateCosmos "sandbox-hk-pc" ["Sandbox-hk-pc"] "out") sample_modules [] = (out', Ok tt)
     /\ first_named sample_modules 2 m /\ mod_name m = "sandbox-hk-pc"
     /\ one_clause_each sample_modules 2 m ["Sandbox-hk-pc"] /\ quiet_messages sample_modules 2 m ["Sandbox-hk-pc"]
     /\ packet_leaves sample_modules 2 [] hk_members ls
     /\ header_at hk_clause [] hk_items /\ Spec_Cfs.fits (identification hk_items)
     /\ header_leaves (nth 0 hk_members (mkmember "" TNull None None)) [] ls /\ all_given hk_items ls
     /\ folder_get out' "out.txt" = Some text /\ read_telemetry text = Some [p]
     /\ map (fun t => (t_name t, t_bits t, t_role t)) (firstn 4 (p_items p))
        = [("packet-version-number", 3%Z, Id "0"); ("packet-type-is-cmd", 1%Z, Id "0");
           ("sec-hdr-flag-is-present", 1%Z, Id "1"); ("application-process-identifier", 11%Z, Id "0x99")].
Proof.
  split; [exact sample_grammatical|]. split; [split; [discriminate|apply pchar_plain; reflexivity]|].
  destruct hk_sample as (ls & Pl & Hl & Al & Oc & Qu).
  assert (B : exists b, build_from_cosmos_config sample_modules = Ok b /\ all_modules b = sample_modules)
    by (eexists; split; [vm_compute; reflexivity|vm_compute; reflexivity]).
  destruct B as (b & Hb & Eb).
  assert (F : first_named sample_modules 2 hk_module).
  { split; [reflexivity|]. intros [|[|j]] m' L E; [..|lia]; injection E as <-; discriminate. }
  assert (U : forall n cm l ls', In n ["Sandbox-hk-pc"] -> In (DSequence n cm l) (mod_defs hk_module) -> packet_leaves sample_modules 2 [] l ls' ->
    cm = Some (mkcomment "(0x0899) SANDBOX PC housekeeping telemetry" "" false) /\ ls' = ls).
  { intros n cm l ls' [<-|[]] Hd P. cbn in Hd. destruct Hd as [Hd|[Hd|[Hd|[Hd|[]]]]]; try discriminate Hd. injection Hd as <- <-.
    split; [reflexivity|]. rewrite <- Eb in P, Pl. eapply leaves_unique; [right; exact Hb|exact P|exact Pl]. }
  do 3 eexists. exists hk_module, ls. eexists.
  split; [vm_compute; reflexivity|]. split; [vm_compute; reflexivity|]. split; [exact F|]. split; [reflexivity|].
  split; [intros n cm l ls' Hn Hd P; destruct (U n cm l ls' Hn Hd P) as (_ & ->); exact Oc|].
  split.
  { intros n cm l ls' Hn Hd P. destruct (U n cm l ls' Hn Hd P) as (-> & ->). split; [|exact Qu].
    split; intros X; vm_compute in X; intuition discriminate. }
  split; [exact Pl|].
  split; [eapply header_here; [left; reflexivity|do 3 eexists; reflexivity]|].
  split; [vm_compute; intuition discriminate|]. split; [exact Hl|]. split; [exact Al|].
  split; [vm_compute; reflexivity|]. split; vm_compute; reflexivity.
Qed.

(** A header given as [items]. *)
Definition one_header (items : list witem) : list module :=
  [mkmodule "m" None [] None
    [DSequence "Msg" None [mkmember "header" (TName "Header") None (Some (WC None [WI "primary" (VWith (WC None
       [WI "packet-identification" (VWith (WC None items)) None])) None]))];
     DSequence "Header" None [mkmember "primary" (TName "Primary") None None];
     DSequence "Primary" None [mkmember "packet-identification" (TName "Ident") None None];
     DSequence "Ident" None
       [mkmember "packet-version-number" (TInteger (Some (0, 7)%Z)) None None;
        mkmember "packet-type-is-cmd" TBoolean None None; mkmember "sec-hdr-flag-is-present" TBoolean None None;
        mkmember "application-process-identifier" (TInteger (Some (0, 2047)%Z)) None None]]].

(** A BOOLEAN given as 1, and an APID that does not fit: the message ID is not
    recognised. *)
Definition wrong_headers : list (list witem) :=
  [[WI "packet-type-is-cmd" (VInt 1) None; WI "application-process-identifier" (VInt 26) None];
   [WI "application-process-identifier" (VInt 2074) None]].

Theorem C78_recognised_refuted : Forall (fun items => exists out out' text p a b s id,
  Forall (fun m => grammatical m = true) (one_header items)
  /\ run 9 (GenerateCfs ["m"]) (one_header items) [] = (out, Ok tt)
  /\ run 9 (GenerateCosmos "m" ["Msg"] "out") (one_header items) [] = (out', Ok tt)
  /\ folder_get out "m_msgids.h" = Some (a ++ "#define MSG_MID (0x" ++ s ++ ")" ++ NL ++ b)%string
  /\ read_hex s = Some id
  /\ folder_get out' "out.txt" = Some text /\ read_telemetry text = Some [p]
  /\ ~ recognises p id True) wrong_headers.
Proof.
  assert (G : forall p its' rest' id bs, p_items p = its' ++ rest' -> length its' = 4%nat -> length bs = 16%nat -> bits_value bs = id ->
    ~ identified its' bs -> ~ recognises p id True).
  { intros p its' rest' id bs E L Lb Eb N (its & rest & E' & L' & _ & R). apply N.
    assert (its = its') as <-.
    { rewrite E in E'. apply (f_equal (firstn 4)) in E'. rewrite <- L in E' at 1. rewrite <- L' in E' at 1.
      rewrite !firstn_app, !firstn_all, !Nat.sub_diag, !firstn_O, !app_nil_r in E'. symmetry. exact E'. }
    apply (R bs Lb). exact Eb. }
  repeat apply Forall_cons; [| |constructor].
  - do 4 eexists. exists ("#ifndef ASN1_PARSER_M_MSGIDS_H_INCLUDED" ++ NL ++ "#define ASN1_PARSER_M_MSGIDS_H_INCLUDED"
      ++ NL ++ NL ++ "/*" ++ NL ++ "This file was autogenerated from ASN.1 model." ++ NL ++ "*/" ++ NL ++ NL)%string,
      (NL ++ "#endif // ASN1_PARSER_M_MSGIDS_H_INCLUDED" ++ NL)%string, "101A"%string. eexists.
    split; [repeat constructor; vm_compute; reflexivity|]. split; [vm_compute; reflexivity|]. split; [vm_compute; reflexivity|].
    split; [vm_compute; reflexivity|]. split; [vm_compute; reflexivity|]. split; [vm_compute; reflexivity|]. split; [vm_compute; reflexivity|].
    apply (G _ _ [] _ [false; false; false; true; false; false; false; false; false; false; false; true; true; false; true; false] (eq_sym (app_nil_r _)));
      [reflexivity|reflexivity|reflexivity|]. vm_compute. intuition discriminate.
  - do 4 eexists. exists ("#ifndef ASN1_PARSER_M_MSGIDS_H_INCLUDED" ++ NL ++ "#define ASN1_PARSER_M_MSGIDS_H_INCLUDED"
      ++ NL ++ NL ++ "/*" ++ NL ++ "This file was autogenerated from ASN.1 model." ++ NL ++ "*/" ++ NL ++ NL)%string,
      (NL ++ "#endif // ASN1_PARSER_M_MSGIDS_H_INCLUDED" ++ NL)%string, "081A"%string. eexists.
    split; [repeat constructor; vm_compute; reflexivity|]. split; [vm_compute; reflexivity|]. split; [vm_compute; reflexivity|].
    split; [vm_compute; reflexivity|]. split; [vm_compute; reflexivity|]. split; [vm_compute; reflexivity|]. split; [vm_compute; reflexivity|].
    apply (G _ _ [] _ [false; false; false; false; true; false; false; false; false; false; false; true; true; false; true; false] (eq_sym (app_nil_r _)));
      [reflexivity|reflexivity|reflexivity|]. vm_compute. intuition discriminate.
Qed.
Print Assumptions C78_recognised_refuted.
