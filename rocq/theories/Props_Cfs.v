(** * Properties C27-C30: message IDs and defines of the cfs command *)
From Coq Require Import Permutation.
From Verif Require Import Base PyNum PyStr Ast Bundle CCommon GenCfs Main Spec_Grammar Spec_Text Spec_Cfs
  Cfs_proofs Printed_proofs Samples.
Open Scope string_scope.

(** C27: a primary header clause that fixes the identification gives a define
    of the message ID, as four hexadecimal digits, whatever the order of the
    components and whichever of them are omitted, *)
Theorem C27_message_id : forall names fuel input fs fs' m n cm ms k w h items,
  Forall (fun m => grammatical m = true) input -> run fuel (GenerateCfs names) input fs = (fs', Ok tt) -> In m input ->
  In (DSequence n cm ms) (mod_defs m) -> In k ms -> m_with k = Some w -> In (EHeader h) (clause_entries w) ->
  header_of h items -> NoDup (map wi_key items) -> fits (identification items) ->
  exists p q s, folder_get fs' (c_name (mod_name m) ++ "_msgids.h")
       = Some (p ++ "#define " ++ upper (c_name n) ++ "_MID (0x" ++ s ++ ")" ++ NL ++ q)
    /\ String.length s = 4%nat /\ read_hex s = Some (message_id (identification items)).
Proof. exact mid_written. Qed.
Print Assumptions C27_message_id.

(** the message ID fits 16 bits and the fields can be read back, *)
Theorem C27_fields_recovered : forall i, fits i ->
  (0 <= message_id i < 2 ^ 16)%Z /\ fields_of (message_id i) = i.
Proof. intros i H. split; [exact (message_id_range i H)|exact (fields_message_id i H)]. Qed.
Print Assumptions C27_fields_recovered.

(** and a clause is refused exactly if a primary header contains something
    else than numbers for the four fields. *)
Theorem C27_accepted_iff : forall n k w, m_with k = Some w ->
  ((exists c, cfs_with_components n k = Ok c) <-> Forall encodable (clause_entries w)).
Proof. exact cfs_clause_ok_iff. Qed.
Print Assumptions C27_accepted_iff.

Example C27_sample : exists fs' m n cm ms k w h items p q,
  run 9 (GenerateCfs sample_names) sample_modules [] = (fs', Ok tt) /\ In m sample_modules
  /\ In (DSequence n cm ms) (mod_defs m) /\ In k ms /\ m_with k = Some w /\ In (EHeader h) (clause_entries w)
  /\ header_of h items /\ NoDup (map wi_key items) /\ fits (identification items)
  /\ message_id (identification items) = 2201%Z
  /\ folder_get fs' "sandbox_hk_pc_msgids.h" = Some (p ++ "#define SANDBOX_HK_PC_MID (0x0899)" ++ NL ++ q).
Proof.
  eexists. exists (nth 2 sample_modules integer_module). do 2 eexists.
  exists (seq_children (nth 2 (mod_defs (nth 2 sample_modules integer_module)) (DSimple "" TNull None))).
  do 4 eexists. exists ("#ifndef ASN1_PARSER_SANDBOX_HK_PC_MSGIDS_H_INCLUDED" ++ NL ++ "#define ASN1_PARSER_SANDBOX_HK_PC_MSGIDS_H_INCLUDED"
    ++ NL ++ NL ++ "/*" ++ NL ++ "This file was autogenerated from ASN.1 model." ++ NL ++ "*/" ++ NL ++ NL),
    (NL ++ "#endif // ASN1_PARSER_SANDBOX_HK_PC_MSGIDS_H_INCLUDED" ++ NL).
  split; [vm_compute; reflexivity|]. split; [do 2 right; left; reflexivity|].
  split; [do 2 right; left; reflexivity|]. split; [left; reflexivity|]. split; [reflexivity|].
  split; [left; reflexivity|]. split; [do 3 eexists; reflexivity|].
  split; [repeat constructor; cbn [In map wi_key]; intuition discriminate|].
  split; [vm_compute; intuition discriminate|]. split; reflexivity.
Qed.

(** C28.  Full statement: an identification with a field out of range is
    rejected and never changes another field.  It is false; any APID is taken: *)
Theorem C28_any_apid_accepted : forall n z, (0 <= z)%Z ->
  exists s, cfs_with_components n (mkmember "header" (TName "H") None (Some (WC None [WI "primary" (VWith (WC None
     [WI "packet-identification" (VWith (WC None [WI "application-process-identifier" (VInt z) None])) None])) None])))
   = Ok (mkcdata [] [mkdefine (upper n ++ "_MID") ("(0x" ++ s ++ ")") false] [] [] [] "" false false "" [])
  /\ read_hex s = Some z.
Proof. exact any_apid. Qed.
Print Assumptions C28_any_apid_accepted.

(** Two packets; the types of their headers are declared with the ranges of
    CCSDS. *)
Definition ccsds_module (i1 i2 : list witem) : module :=
  mkmodule "m" None [] None
    [DSequence "Ident" None
       [mkmember "packet-version-number" (TInteger (Some (0, 7)%Z)) None None;
        mkmember "packet-type-is-cmd" TBoolean None None;
        mkmember "sec-hdr-flag-is-present" TBoolean None None;
        mkmember "application-process-identifier" (TInteger (Some (0, 2047)%Z)) None None];
     DSequence "Primary" None [mkmember "packet-identification" (TName "Ident") None None];
     DSequence "Header" None [mkmember "primary" (TName "Primary") None None];
     DSequence "P1" None [mkmember "header" (TName "Header") None (Some (WC None [WI "primary" (VWith (WC None
       [WI "packet-identification" (VWith (WC None i1)) None])) None]))];
     DSequence "P2" None [mkmember "header" (TName "Header") None (Some (WC None [WI "primary" (VWith (WC None
       [WI "packet-identification" (VWith (WC None i2)) None])) None]))]].

Definition mids (m : module) : option (list (string * string)) :=
  match build_from_config [mod_name m] [m] with
  | Ok b => match b_modules b with
            | [bm] => match cfs_cdata 9 b bm with
                      | Ok c => Some (map (fun d => (df_name d, df_value d)) (cd_defines c))
                      | _ => None
                      end
            | _ => None
            end
  | _ => None
  end.

Theorem C28_out_of_range_refuted : exists i1 i2 fs',
  let m := ccsds_module i1 i2 in
  grammatical m = true /\ run 9 (GenerateCfs ["m"]) [m] [] = (fs', Ok tt)
  /\ ~ fits (identification i1) /\ fits (identification i2)
  /\ sec_hdr (identification i1) <> sec_hdr (identification i2)
  /\ mids m = Some [("P1_MID", "(0x0801)"); ("P2_MID", "(0x0801)")].
Proof.
  exists [WI "sec-hdr-flag-is-present" (VBool false) None; WI "application-process-identifier" (VInt 2049) None],
    [WI "sec-hdr-flag-is-present" (VBool true) None; WI "application-process-identifier" (VInt 1) None].
  eexists. cbv zeta. split; [vm_compute; reflexivity|]. split; [vm_compute; reflexivity|].
  split; [vm_compute; intuition discriminate|]. split; [vm_compute; intuition discriminate|].
  split; [vm_compute; discriminate|vm_compute; reflexivity].
Qed.
Print Assumptions C28_out_of_range_refuted.

(** What holds: a field in range does not touch the others (C27), and a
    component that is not a number is rejected (C27_accepted_iff). *)
Theorem C28_non_numeric_rejected_partial : forall n k w h i w' j,
  m_with k = Some w -> In (EHeader h) (clause_entries w) -> In i (wc_items h) -> wi_value i = VWith w' ->
  In j (wc_items w') -> numeric (wi_value j) = None ->
  ~ exists c, cfs_with_components n k = Ok c.
Proof.
  intros n k w h i w' j Hw He Hi Hv Hj Hn H. apply (cfs_clause_ok_iff n k w Hw) in H. rewrite Forall_forall in H.
  destruct (H _ He _ Hi) as (_ & w2 & E & G). rewrite Hv in E. injection E as <-. destruct (G _ Hj) as (_ & G'). contradiction.
Qed.
Print Assumptions C28_non_numeric_rejected_partial.

Example C28_sample : exists k w h i w' j, m_with k = Some w /\ In (EHeader h) (clause_entries w)
  /\ In i (wc_items h) /\ wi_value i = VWith w' /\ In j (wc_items w') /\ numeric (wi_value j) = None.
Proof.
  exists (mkmember "header" (TName "H") None (Some (WC None [WI "primary" (VWith (WC None
     [WI "packet-identification" (VWith (WC None [WI "application-process-identifier"
        (VFloat (mkfloat (DFin false 1 0) "1.0")) None])) None])) None]))). do 5 eexists.
  split; [reflexivity|]. split; [left; reflexivity|]. split; [left; reflexivity|]. split; [reflexivity|].
  split; [left; reflexivity|reflexivity].
Qed.

(** C29.  Full statement: two different packets never get the same message ID.
    It holds for packets with different identifications in range, *)
Theorem C29_distinct_ids_partial : forall n n' h h' i i' d d',
  defines n (EHeader h) d -> defines n' (EHeader h') d' -> header_of h i -> header_of h' i' ->
  NoDup (map wi_key i) -> NoDup (map wi_key i') -> fits (identification i) -> fits (identification i') ->
  df_value d = df_value d' -> identification i = identification i'.
Proof. exact mid_distinct. Qed.
Print Assumptions C29_distinct_ids_partial.

Example C29_sample : exists i1 i2,
  let m := ccsds_module i1 i2 in
  fits (identification i1) /\ fits (identification i2) /\ identification i1 <> identification i2
  /\ mids m = Some [("P1_MID", "(0x0801)"); ("P2_MID", "(0xFFFF)")].
Proof.
  exists [WI "application-process-identifier" (VInt 1) None; WI "sec-hdr-flag-is-present" (VBool true) None],
    [WI "packet-version-number" (VInt 7) None; WI "packet-type-is-cmd" (VBool true) None;
     WI "sec-hdr-flag-is-present" (VBool true) None; WI "application-process-identifier" (VInt 2047) None].
  cbv zeta. split; [vm_compute; intuition discriminate|]. split; [vm_compute; intuition discriminate|].
  split; [vm_compute; discriminate|vm_compute; reflexivity].
Qed.

(** but nothing stops two packets from having the same identification. *)
Theorem C29_ids_unique_refuted : exists i1 i2 fs',
  let m := ccsds_module i1 i2 in
  grammatical m = true /\ run 9 (GenerateCfs ["m"]) [m] [] = (fs', Ok tt)
  /\ fits (identification i1) /\ fits (identification i2)
  /\ mids m = Some [("P1_MID", "(0x0801)"); ("P2_MID", "(0x0801)")].
Proof.
  exists [WI "sec-hdr-flag-is-present" (VBool true) None; WI "application-process-identifier" (VInt 1) None],
    [WI "sec-hdr-flag-is-present" (VBool true) None; WI "application-process-identifier" (VInt 1) None].
  eexists. cbv zeta. split; [vm_compute; reflexivity|]. split; [vm_compute; reflexivity|].
  split; [vm_compute; intuition discriminate|]. split; [vm_compute; intuition discriminate|vm_compute; reflexivity].
Qed.
Print Assumptions C29_ids_unique_refuted.

(** C30: the msgids header of a module contains one define per entry of the
    clauses of its sequences, in textual order within each sequence, and
    nothing else. *)
Theorem C30_defines_partial : forall names fuel input fs fs' m,
  Forall (fun m => grammatical m = true) input -> run fuel (GenerateCfs names) input fs = (fs', Ok tt) -> In m input ->
  exists order ds g, Permutation order (mod_defs m)
    /\ Forall2 (fun ne d => defines (fst ne) (snd ne) d) (flat_map def_entries order) ds
    /\ g = "ASN1_PARSER_" ++ upper (c_name (mod_name m)) ++ "_MSGIDS_H_INCLUDED"
    /\ folder_get fs' (c_name (mod_name m) ++ "_msgids.h") =
       Some ("#ifndef " ++ g ++ NL ++ "#define " ++ g ++ NL ++ NL
             ++ "/*" ++ NL ++ "This file was autogenerated from ASN.1 model." ++ NL ++ "*/" ++ NL ++ NL
             ++ String.concat "" (map define_line ds) ++ (match ds with [] => "" | _ => NL end)
             ++ "#endif // " ++ g ++ NL).
Proof. exact msgids_text. Qed.
Print Assumptions C30_defines_partial.

(** Names are defined twice exactly if the names of a sequence and of a
    component, joined by a hyphen, coincide with another such pair (and a
    primary header counts as a component "mid"). *)
Theorem C30_names_distinct_iff : forall m order ds, grammatical m = true -> Permutation order (mod_defs m) ->
  Forall2 (fun ne d => defines (fst ne) (snd ne) d) (flat_map def_entries order) ds ->
  (NoDup (map df_name ds) <->
   NoDup (map (fun ne => fst ne ++ "-" ++ entry_key (snd ne)) (flat_map def_entries (mod_defs m)))).
Proof. exact define_names_input. Qed.
Print Assumptions C30_names_distinct_iff.

Definition values_module (n1 n2 k1 k2 : string) (w1 w2 : wcomps) : module :=
  mkmodule "m" None [] None
    [DSequence "T" None [mkmember k1 (TInteger (Some (0, 7)%Z)) None None; mkmember k2 TBoolean None None];
     DSequence "V" None [mkmember "a" (TName "T") None None; mkmember "b" (TName "T") None None];
     DSequence n1 None [mkmember "x" (TName "V") None (Some w1)];
     DSequence n2 None [mkmember "x" (TName "T") None (Some w2)]].

Example C30_sample :
  let m := values_module "P1" "P2" "v" "w"
    (WC None [WI "a" (VWith (WC None [WI "v" (VInt (-5)) None])) None; WI "b" (VWith (WC None [WI "w" (VBool true) None])) None])
    (WC None [WI "w" (VBool false) None; WI "v" (VInt 6) None]) in
  grammatical m = true
  /\ mids m = Some [("P1_V", "(-5)"); ("P1_W", "(true)"); ("P2_W", "(false)"); ("P2_V", "(6)")]
  /\ flat_map def_entries (mod_defs m) = [("P1", EValue "v" (VInt (-5))); ("P1", EValue "w" (VBool true));
       ("P2", EValue "w" (VBool false)); ("P2", EValue "v" (VInt 6))].
Proof. cbv zeta. split; [vm_compute; reflexivity|]. split; vm_compute; reflexivity. Qed.

(** So a name can be defined twice, with different values: within one clause
    and for components of different sequences. *)
Theorem C30_names_distinct_refuted :
  (exists m fs', grammatical m = true /\ run 9 (GenerateCfs ["m"]) [m] [] = (fs', Ok tt)
     /\ mids m = Some [("P1_V", "(1)"); ("P1_V", "(2)"); ("P2_W", "(true)")])
  /\ (exists m fs', grammatical m = true /\ run 9 (GenerateCfs ["m"]) [m] [] = (fs', Ok tt)
     /\ mids m = Some [("A_B_C", "(1)"); ("A_B_C", "(true)")]).
Proof.
  split.
  - exists (values_module "P1" "P2" "v" "w"
      (WC None [WI "a" (VWith (WC None [WI "v" (VInt 1) None])) None; WI "b" (VWith (WC None [WI "v" (VInt 2) None])) None])
      (WC None [WI "w" (VBool true) None])).
    eexists. split; [vm_compute; reflexivity|]. split; vm_compute; reflexivity.
  - exists (values_module "A-b" "A" "c" "b-c"
      (WC None [WI "a" (VWith (WC None [WI "c" (VInt 1) None])) None]) (WC None [WI "b-c" (VBool true) None])).
    eexists. split; [vm_compute; reflexivity|]. split; vm_compute; reflexivity.
Qed.
Print Assumptions C30_names_distinct_refuted.
