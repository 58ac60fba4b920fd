(** * Property C106: the files of c, cfs and binary, letter by letter *)
From Verif Require Import Base PyNum PyStr Ast CCommon GenBinary Main Spec_Grammar Spec_Check Spec_Bundle Spec_Gen Spec_Files Spec_Text Spec_C Spec_Cfs
  Spec_Header Spec_Printed Spec_Place Spec_Failures Spec_Num Spec_Ieee Spec_Binary Spec_Letters
  Letters_proofs Exact_proofs.
From Verif Require Props_Binary.
Open Scope string_scope.

(** C106.  After a finished run of c, cfs or binary the output folder holds the files
    that the specification of Spec_Letters describes, with the one content it
    describes, and the other files that were there before. *)
Theorem C106_folder : forall names cmd fuel input fs fs', config_command names cmd ->
  Forall (fun m => grammatical m = true) input -> run fuel cmd input fs = (fs', Ok tt) ->
  forall f text, folder_get fs' f = Some text <->
    (exists m, In m input /\ file_text cmd input m f text)
    \/ ((forall m, In m input -> ~ file_of cmd m f) /\ folder_get fs f = Some text).
Proof. exact whole_folder_exact. Qed.
Print Assumptions C106_folder.

(** The parts: the header of a module, and the image of a sequence with a
    clause. *)
Theorem C106_headers : forall names cmd fuel input fs fs' m text, config_command names cmd ->
  Forall (fun m => grammatical m = true) input -> run fuel cmd input fs = (fs', Ok tt) -> In m input ->
  (folder_get fs' (header_name cmd (mod_name m)) = Some text <-> is_header cmd input m text).
Proof. exact headers_exact. Qed.
Print Assumptions C106_headers.
Theorem C106_images : forall names fuel input fs fs' e m n c l k text,
  Forall (fun m => grammatical m = true) input -> run fuel (GenerateBinary names (Some e)) input fs = (fs', Ok tt) -> In m input ->
  In (DSequence n c l) (mod_defs m) -> In k l -> m_with k <> None ->
  (folder_get fs' (lowerize (c_name n) ++ ".bin") = Some text <-> is_image input m e n text).
Proof. exact images_exact. Qed.
Print Assumptions C106_images.

(** Numbers can be written in one way only. *)
Theorem C106_decimal : forall z s s', decimal z s -> decimal z s' -> s = s'.
Proof. exact decimal_unique. Qed.
Print Assumptions C106_decimal.
Theorem C106_hexadecimal : forall width z s s', hexadecimal width z s -> hexadecimal width z s' -> s = s'.
Proof. exact hexadecimal_unique. Qed.
Print Assumptions C106_hexadecimal.

(** A value has one image in a given encoding and byte order; the double and
    the single nearest to a number are unique. *)
Theorem C106_image : forall e enc v b b', image e enc v b -> image e enc v b' -> b = b'.
Proof. exact image_unique. Qed.
Print Assumptions C106_image.

(** A run of c and cfs, with a file of another name in the folder. *)
Definition lines (l : list string) : string := String.concat "" (map (fun s => s ++ NL) l).
Definition small_module : module :=
  mkmodule "a-b" None [] None
    [DSequence "Pkt" None [mkmember "header" (TName "Hdr") None
       (Some (WC None [WI "primary" (VWith (WC None [WI "packet-identification" (VWith (WC None
          [WI "packet-version-number" (VInt (-1)) None; WI "application-process-identifier" (VInt 153) None])) None])) None;
        WI "code" (VInt (-7)) None]))];
     DSequence "Hdr" None [mkmember "primary" (TName "Prim") None None; mkmember "code" (TInteger (Some (-9, 9)%Z)) None None];
     DSequence "Prim" None [mkmember "packet-identification" (TName "Ident") None None];
     DSequence "Ident" None [mkmember "packet-version-number" (TInteger (Some (0, 7)%Z)) None None;
       mkmember "application-process-identifier" (TInteger (Some (0, 2047)%Z)) None None]].

Example C106_sample : exists fs1 fs2,
  Forall (fun m => grammatical m = true) [small_module]
  /\ run 9 (GenerateC ["a-b"]) [small_module] [("x", "y")] = (fs1, Ok tt)
  /\ run 9 (GenerateCfs ["a-b"]) [small_module] [("x", "y")] = (fs2, Ok tt)
  /\ folder_get fs1 "x" = Some "y"
  /\ is_source small_module (lines
       ["/*"; "This file was autogenerated from ASN.1 model."; "*/"; ""; "#include ""a_b.h"""; "";
        "Pkt pkt = {"; "  .header = {"; "    .primary = {"; "      .packet_identification = {";
        "        .packet_version_number = -1,"; "        .application_process_identifier = 153,"; "      },"; "    },";
        "    .code = -7,"; "  },"; "};"])
  /\ is_ids_header small_module (lines
       ["#ifndef ASN1_PARSER_A_B_MSGIDS_H_INCLUDED"; "#define ASN1_PARSER_A_B_MSGIDS_H_INCLUDED"; "";
        "/*"; "This file was autogenerated from ASN.1 model."; "*/"; "";
        "#define PKT_MID (0x-1F67)"; "#define PKT_CODE (-7)"; ""; ""; "#endif // ASN1_PARSER_A_B_MSGIDS_H_INCLUDED"]).
Proof.
  eexists. eexists.
  assert (G : Forall (fun m => grammatical m = true) [small_module]) by (repeat constructor).
  split; [exact G|]. split; [vm_compute; reflexivity|]. split; [vm_compute; reflexivity|]. split; [vm_compute; reflexivity|]. split.
  - eapply (sources_exact ["a-b"] 9 [small_module] [] _ small_module); [exact G|vm_compute; reflexivity|left; reflexivity|vm_compute; reflexivity].
  - eapply (msgids_exact ["a-b"] 9 [small_module] [] _ small_module); [exact G|vm_compute; reflexivity|left; reflexivity|vm_compute; reflexivity].
Qed.

(** A run of binary: 7 in a byte, -2 in two, 0.1 as a single and 3 as a
    double. *)
Definition bytes_text (l : list Z) : string := string_of_list_ascii (map (fun z => ascii_of_N (Z.to_N z)) l).
Example C106_binary_sample : exists fs,
  Forall (fun m => grammatical m = true) [Props_Binary.image_module]
  /\ run 9 (GenerateBinary ["m"] (Some BigEndian)) [Props_Binary.image_module] [("x", "y")] = (fs, Ok tt)
  /\ folder_get fs "x" = Some "y"
  /\ is_image [Props_Binary.image_module] Props_Binary.image_module BigEndian "Cmd"
       (bytes_text [7; 255; 254; 61; 204; 204; 205; 64; 8; 0; 0; 0; 0; 0; 0]%Z)
  /\ ~ is_image [Props_Binary.image_module] Props_Binary.image_module BigEndian "Cmd"
       (bytes_text [7; 255; 254; 61; 204; 204; 204; 64; 8; 0; 0; 0; 0; 0; 0]%Z).
Proof.
  eexists. assert (G := Props_Binary.image_grammatical). split; [exact G|]. split; [vm_compute; reflexivity|]. split; [vm_compute; reflexivity|].
  split; [|intros H].
  - eapply (images_exact ["m"] 9 [Props_Binary.image_module] [] _ BigEndian Props_Binary.image_module "Cmd" None); [exact G|vm_compute; reflexivity|left; reflexivity
      |right; right; left; reflexivity|left; reflexivity|discriminate|vm_compute; reflexivity].
  - eapply (images_exact ["m"] 9 [Props_Binary.image_module] [] _ BigEndian Props_Binary.image_module "Cmd" None) in H; [|exact G|vm_compute; reflexivity|left; reflexivity
      |right; right; left; reflexivity|left; reflexivity|discriminate]. vm_compute in H. discriminate.
Qed.
