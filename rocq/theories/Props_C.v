(** * Properties C33, C35, C36: declared types and initialisers *)
From Coq Require Import Permutation.
From Verif Require Import Base PyNum PyStr Ast Bundle CCommon GenCfs GenC Main Spec_Grammar Spec_Check Spec_Bundle Spec_Gen Spec_Text Spec_C
  C_proofs Decl_proofs Samples.
Open Scope string_scope.

(** C33.  Full statement: the type of every struct field is a C or stdint type,
    or was declared by a typedef earlier in the header or in the header of a
    directly imported module.  It holds of members whose type is not a CHOICE
    and not a simple type other than INTEGER and REAL; stdint types come with
    the include of <stdint.h>.  Missing for C33: those types, see below. *)
Theorem C33_declared_before_use_partial : forall names input b bm fuel c i cm s cms ms fields q k f,
  Forall (fun m => grammatical m = true) input -> build_from_config names input = Ok b ->
  In bm (b_modules b) -> generated fuel b bm c ->
  nth_error (cd_data c) i = Some (CStruct cm (c_name s) fields) ->
  In (DSequence s cms ms) (mod_defs (bm_mod bm)) -> nth_error ms q = Some k -> nth_error fields q = Some f ->
  has_c_type (definitions input) (element (m_type k)) ->
  (In (cf_type f) C_TYPES /\ (In (cf_type f) STDINT_TYPES -> cd_stdint c = true))
  \/ (exists j x, (j < i)%nat /\ nth_error (cd_data c) j = Some x /\ introduces x (cf_type f))
  \/ (exists it im, In it (mod_imports (bm_mod bm)) /\ In im (b_modules b) /\ bm_name im = imp_module it
        /\ forall fuel' c', generated fuel' b im c' -> exists x, In x (cd_data c') /\ introduces x (cf_type f)).
Proof. exact field_declared. Qed.
Print Assumptions C33_declared_before_use_partial.

(** All three cases occur in the sample. *)
Example C33_sample : exists b bm fields fields' c,
  build_from_config sample_names sample_modules = Ok b /\ In bm (b_modules b) /\ cfs_cdata 9 b bm = Ok c
  /\ cd_stdint c = true
  /\ nth_error (cd_data c) 0 = Some (CStruct None "Payload_sandbox_hk_pc" fields)
  /\ nth_error (cd_data c) 1 = Some (CStruct (Some "(0x0899) SANDBOX PC housekeeping telemetry") "Sandbox_hk_pc" fields')
  /\ map cf_type fields = ["float"; "float"; "float"; "float"; "uint64_t"; "uint64_t"; "uint64_t"]
  /\ map cf_type fields' = ["Cfe_tlm_header"; "Payload_sandbox_hk_pc"].
Proof.
  eexists. exists (nth 2 (match build_from_config sample_names sample_modules with Ok b => b_modules b | _ => [] end)
    (mkbmodule integer_module [])). do 3 eexists.
  split; [vm_compute; reflexivity|]. split; [do 2 right; left; vm_compute; reflexivity|].
  split; [vm_compute; reflexivity|]. split; [reflexivity|]. split; [reflexivity|]. split; [reflexivity|]. split; reflexivity.
Qed.

(** A CHOICE becomes a union without typedef, so its name is not a type; a
    simple BOOLEAN becomes [bool], without an include that declares it. *)
Definition odd_types : module :=
  mkmodule "m" None [] None
    [DChoice "Which" None [mkmember "a" (TName "Uint8-t") None None];
     DSimple "Flag" TBoolean None; DSimple "Uint8-t" (TInteger (Some (0, 255)%Z)) None;
     DSequence "S" None [mkmember "w" (TName "Which") None None; mkmember "f" (TName "Flag") None None]].

Theorem C33_declared_before_use_refuted : exists b bm c fields,
  Forall (fun m => grammatical m = true) [odd_types] /\ build_from_config ["m"] [odd_types] = Ok b
  /\ In bm (b_modules b) /\ mod_imports (bm_mod bm) = [] /\ c_cdata 9 b bm = Ok c
  /\ (exists c', cfs_cdata 9 b bm = Ok c' /\ cd_data c' = cd_data c)
  /\ In (CStruct None "S" fields) (cd_data c) /\ map cf_type fields = ["Which"; "bool"]
  /\ cd_stdbool c = false
  /\ forall t, In t ["Which"; "bool"] -> ~ In t C_TYPES /\ forall x, In x (cd_data c) -> ~ introduces x t.
Proof.
  eexists. exists (mkbmodule odd_types []). do 2 eexists.
  split; [repeat constructor|]. split; [vm_compute; reflexivity|]. split; [left; vm_compute; reflexivity|].
  split; [reflexivity|]. split; [vm_compute; reflexivity|].
  split; [eexists; split; [vm_compute; reflexivity|reflexivity]|].
  split; [right; left; reflexivity|]. split; [reflexivity|]. split; [reflexivity|].
  intros t [<-|[<-|[]]].
  - split; [vm_compute; intuition discriminate|]. intros x [<-|[<-|[]]]; vm_compute; [tauto|discriminate].
  - split; [vm_compute; intuition discriminate|]. intros x [<-|[<-|[]]]; vm_compute; [tauto|discriminate].
Qed.
Print Assumptions C33_declared_before_use_refuted.

(** The members of a union have the ASN.1 names as types, which for the POSIX
    types are declared nowhere. *)
Theorem C33_union_members_refuted : exists b bm c,
  Forall (fun m => grammatical m = true) [odd_types] /\ build_from_config ["m"] [odd_types] = Ok b
  /\ In bm (b_modules b) /\ mod_imports (bm_mod bm) = [] /\ c_cdata 9 b bm = Ok c
  /\ In (CUnion None "Which" "which" [("Uint8_t", "a", None)]) (cd_data c)
  /\ ~ In "Uint8_t" C_TYPES /\ forall x, In x (cd_data c) -> ~ introduces x "Uint8_t".
Proof.
  eexists. exists (mkbmodule odd_types []). eexists.
  split; [repeat constructor|]. split; [vm_compute; reflexivity|]. split; [left; vm_compute; reflexivity|].
  split; [reflexivity|]. split; [vm_compute; reflexivity|]. split; [left; reflexivity|].
  split; [vm_compute; intuition discriminate|]. intros x [<-|[<-|[]]]; vm_compute; [tauto|discriminate].
Qed.
Print Assumptions C33_union_members_refuted.

(** C35: the .c file written for a module consists of the head, possibly an
    include and one initialiser for each clause, from which keys, nesting,
    order and values can be read. *)
Theorem C35_initialisers : forall names fuel input fs fs' m,
  Forall (fun m => grammatical m = true) input -> run fuel (GenerateC names) input fs = (fs', Ok tt) -> In m input ->
  exists order include texts, Permutation order (mod_defs m)
    /\ Forall2 initialises (flat_map def_clauses order) texts
    /\ (ends_with_clause order -> include = "#include """ ++ c_name (mod_name m) ++ ".h""" ++ NL ++ NL)
    /\ (~ ends_with_clause order -> include = "")
    /\ folder_get fs' (c_name (mod_name m) ++ ".c") = Some (source_head m ++ include ++ String.concat "" texts).
Proof. exact source_written. Qed.
Print Assumptions C35_initialisers.

(** The text determines the sequence, the member and the clause. *)
Theorem C35_reconstructed : forall n k w n' k' w' text,
  is_name_capital n = true -> is_name_lower k = true -> wcomps_ok w = true ->
  is_name_capital n' = true -> is_name_lower k' = true -> wcomps_ok w' = true ->
  initialises (n, k, w) text -> initialises (n', k', w') text ->
  n = n' /\ k = k' /\ agree (wc_items w) (wc_items w').
Proof. exact text_determines. Qed.
Print Assumptions C35_reconstructed.

Definition clause_module : module :=
  mkmodule "m" None [] None
    [DSequence "Point" None [mkmember "x" (TInteger (Some (-9, 9)%Z)) None None; mkmember "on" TBoolean None None];
     DSequence "Frame" None
       [mkmember "from" (TName "Point") None
          (Some (WC None [WI "x" (VInt (-3)) None; WI "on" (VBool true) None]));
        mkmember "a" (TName "Box") None
          (Some (WC None [WI "lo" (VWith (WC None [WI "x" (VInt 4) None])) None]))];
     DSequence "Box" None [mkmember "lo" (TName "Point") None None]].

Example C35_sample : exists fs',
  run 9 (GenerateC ["m"]) [clause_module] [] = (fs', Ok tt)
  /\ folder_get fs' "m.c" = Some (source_head clause_module
       ++ "#include ""m.h""" ++ NL ++ NL
       ++ "Frame frame = {" ++ NL ++ "  .from = {" ++ NL ++ "    .x = -3," ++ NL ++ "    .on = 1," ++ NL ++ "  }," ++ NL ++ "};" ++ NL
       ++ "Frame frame = {" ++ NL ++ "  .a = {" ++ NL ++ "    .lo = {" ++ NL ++ "      .x = 4," ++ NL ++ "    }," ++ NL ++ "  }," ++ NL ++ "};" ++ NL)
  /\ read_init ("  .a = {" ++ NL ++ "    .lo = {" ++ NL ++ "      .x = 4," ++ NL ++ "    }," ++ NL ++ "  }," ++ NL)
     = Some [Node "a" [Node "lo" [Leaf "x" "4"]]].
Proof. eexists. split; [vm_compute; reflexivity|]. split; vm_compute; reflexivity. Qed.

(** C36.  Full statement: a .c file with an initialiser includes its header.
    False: the include is forgotten if a definition without clause that is not
    a simple type comes last. *)
Definition lost_include : module :=
  mkmodule "m" None [] None
    [DSequence "Point" None [mkmember "x" TBoolean None None];
     DSequence "Frame" None [mkmember "from" (TName "Point") None (Some (WC None [WI "x" (VBool true) None]))];
     DEnumerated "Mode" None [mkenum "off" None None; mkenum "on" None None]].

Theorem C36_header_included_refuted : exists fs' text p q,
  Forall (fun m => grammatical m = true) [lost_include]
  /\ run 9 (GenerateC ["m"]) [lost_include] [] = (fs', Ok tt) /\ folder_get fs' "m.c" = Some text
  /\ text = p ++ "Frame frame = {" ++ NL ++ q /\ String.index 0 "#include" text = None.
Proof.
  do 2 eexists. exists (source_head lost_include).
  exists ("  .from = {" ++ NL ++ "    .x = 1," ++ NL ++ "  }," ++ NL ++ "};" ++ NL).
  split; [repeat constructor|]. split; [vm_compute; reflexivity|]. split; [vm_compute; reflexivity|].
  split; vm_compute; reflexivity.
Qed.
Print Assumptions C36_header_included_refuted.

(** What holds: the header is included if every definition that is not a
    simple type has a clause ([C35_initialisers] tells exactly when it is).
    Missing for C36: modules with other definitions. *)
Theorem C36_header_included_partial : forall names fuel input fs fs' m,
  Forall (fun m => grammatical m = true) input -> run fuel (GenerateC names) input fs = (fs', Ok tt) -> In m input ->
  (exists d, In d (mod_defs m) /\ def_clauses d <> []) ->
  (forall d, In d (mod_defs m) -> is_simple d = true \/ def_clauses d <> []) ->
  exists rest, folder_get fs' (c_name (mod_name m) ++ ".c")
    = Some (source_head m ++ "#include """ ++ c_name (mod_name m) ++ ".h""" ++ NL ++ NL ++ rest).
Proof. exact header_included. Qed.
Print Assumptions C36_header_included_partial.

Definition point_modules : list module :=
  [mkmodule "frames" None [mkimport ["Point"] "points" None] None
     [DSimple "Count" (TInteger (Some (0, 9)%Z)) None;
      DSequence "Frame" None [mkmember "from" (TName "Point") None (Some (WC None [WI "x" (VBool true) None]))]];
   mkmodule "points" None [] None [DSequence "Point" None [mkmember "x" TBoolean None None]]].

Example C36_sample : exists fs' m,
  Forall (fun m => grammatical m = true) point_modules
  /\ run 9 (GenerateC ["frames"; "points"]) point_modules [] = (fs', Ok tt) /\ In m point_modules
  /\ (exists d, In d (mod_defs m) /\ def_clauses d <> [])
  /\ (forall d, In d (mod_defs m) -> is_simple d = true \/ def_clauses d <> []).
Proof.
  eexists. exists (nth 0 point_modules odd_types). split; [repeat constructor|]. split; [vm_compute; reflexivity|].
  split; [left; reflexivity|]. split; [eexists; split; [right; left; reflexivity|discriminate]|].
  intros d [<-|[<-|[]]]; [left; reflexivity|right; discriminate].
Qed.
