(** * Property C57: what the generated headers declare *)
From Coq Require Import Permutation.
From Verif Require Import Base PyNum PyStr Ast Bundle CCommon GenCfs GenC Main Spec_Grammar Spec_Check Spec_Enum Spec_Bundle Spec_Gen Spec_Files Spec_C Spec_Header
  Header3_proofs.
Open Scope string_scope.

(** C57.  Full statement: read as C, the header of each module has the include
    guard of its name, includes the headers of the imported modules, includes
    <stdint.h> exactly when a struct needs it, and declares, each definition
    after those it uses, the structs, enumerations and unions that the
    definitions say ([definition_said], Spec_Header).  It holds of modules
    whose comments do no harm ([quiet]).  Missing for C57: other comments, for
    which it fails, see below. *)
Theorem C57_header_declares_partial : forall names cmd fuel input fs fs' m,
  config_command names cmd -> Forall (fun m => grammatical m = true) input ->
  run fuel cmd input fs = (fs', Ok tt) -> In m input -> quiet m ->
  exists text h order dss std,
    folder_get fs' (header_name cmd (mod_name m)) = Some text /\ read_header text = Some h
    /\ h_guard h = header_guard cmd (mod_name m)
    /\ h_includes h = (std ++ map (fun it => Local (included_file cmd (imp_module it))) (mod_imports m))%list
    /\ ((std = [System "stdint"] /\ exists x, In x (h_decls h) /\ uses_stdint x)
        \/ (std = [] /\ ~ exists x, In x (h_decls h) /\ uses_stdint x))
    /\ h_decls h = (concat dss ++ variables_said cmd order)%list
    /\ Permutation order (mod_defs m)
    /\ (forall i d k n, nth_error order i = Some d -> In k (members_of d) -> element (m_type k) = TName n ->
         (exists j d', (j < i)%nat /\ nth_error order j = Some d' /\ def_name d' = n)
         \/ exists it, In it (mod_imports m) /\ In n (imp_names it))
    /\ Forall2 (definition_said (definitions input)) order dss.
Proof. exact header_declares. Qed.
Print Assumptions C57_header_declares_partial.

(** What the definitions say is determined by them. *)
Theorem C57_said_once : forall ds d x y, NoDup (map def_name ds) ->
  definition_said ds d x -> definition_said ds d y -> x = y.
Proof. exact definition_said_unique. Qed.
Print Assumptions C57_said_once.

(** A run with two modules, an import and every kind of definition. *)
Definition note (s : string) : option comment := Some (mkcomment s "" false).
Definition used_module : module :=
  mkmodule "used" (note "Types") [] None
    [DSimple "Uint16-t" (TInteger (Some (0, 65535)%Z)) None;
     DEnumerated "Mode" (note "modes") [mkenum "off" None (note "not on"); mkenum "on" None None; mkenum "safe" None None]].
Definition using_module : module :=
  mkmodule "using-it" None [mkimport ["Uint16-t"; "Mode"] "used" None] None
    [DSequence "Outer" None
       [mkmember "inner" (TName "Inner") None (Some (WC None [WI "count" (VInt 3) None]));
        mkmember "modes" (TArray 4 (TName "Mode")) None None];
     DSequence "Inner" (note "ready - set")
       [mkmember "count" (TInteger (Some (0, 300)%Z)) (note "how many") None; mkmember "id" (TName "Uint16-t") None None;
        mkmember "mode" (TName "Mode") None None; mkmember "delta" (TInteger (Some (-5, 5)%Z)) None None;
        mkmember "name" (TString IA5String 8) None None; mkmember "on" TBoolean None None];
     DChoice "Either" None [mkmember "a" (TName "Inner") None None; mkmember "b" (TName "Outer") None None]].

Example C57_sample : exists fs',
  config_command ["used"; "using-it"] (GenerateC ["used"; "using-it"])
  /\ Forall (fun m => grammatical m = true) [using_module; used_module]
  /\ run 9 (GenerateC ["used"; "using-it"]) [using_module; used_module] [] = (fs', Ok tt)
  /\ quiet using_module /\ quiet used_module
  /\ option_map read_header (folder_get fs' "using_it.h") = Some (Some
       (mkheader "ASN1_PARSER_USING_IT_H_INCLUDED" [System "stdint"; Local "used"]
          [XStruct true "Inner"
             [mkxfield ["uint16_t"] "count" (Some 9%Z) None; mkxfield ["uint16_t"] "id" None None;
              mkxfield ["Mode"] "mode" (Some 2%Z) None; mkxfield ["int"] "delta" None None;
              mkxfield ["char"] "name" None (Some 8%Z); mkxfield ["uint8_t"] "on" (Some 1%Z) None];
           XStruct true "Outer" [mkxfield ["Inner"] "inner" None None; mkxfield ["Mode"] "modes" None (Some 4%Z)];
           XUnion "Either" [mkxfield ["Inner"] "a" None None; mkxfield ["Outer"] "b" None None] "either";
           XVar "Outer" "outer"]))
  /\ option_map read_header (folder_get fs' "used.h") = Some (Some
       (mkheader "ASN1_PARSER_USED_H_INCLUDED" []
          [XEnum true "Mode" [("off", 0%Z); ("on", 1%Z); ("safe", 2%Z)]])).
Proof.
  eexists. split; [right; left; reflexivity|]. split; [repeat constructor|]. split; [vm_compute; reflexivity|].
  split; [|split; [|split; vm_compute; reflexivity]].
  - repeat constructor; simpl; try exact I; try (apply no_backslash_quiet; reflexivity); apply no_slash_quiet; reflexivity.
  - repeat constructor; simpl; try exact I; try (apply no_backslash_quiet; reflexivity); apply no_slash_quiet; reflexivity.
Qed.

(** A comment that ends the block comment it is written into: the header
    declares a variable that is in no definition. *)
Definition smuggled : module :=
  mkmodule "m" None [] None [DSequence "S" (note "*/ Int x; /*") [mkmember "a" TBoolean None None]].
(** A line comment that ends with a backslash: the field after it is part of
    the comment. *)
Definition swallowed : module :=
  mkmodule "m" None [] None
    [DSequence "S" None [mkmember "a" TBoolean (note "A OR NOT \") None; mkmember "b" TBoolean None None]].
(** The comment of a CHOICE member: the rest of the union stands on its
    line. *)
Definition choice_comment : module :=
  mkmodule "m" None [] None
    [DSequence "S" None [mkmember "a" TBoolean None None];
     DChoice "W" None [mkmember "a" (TName "S") (note "first") None; mkmember "b" (TName "S") None None]].

(** No order of the definitions fits the declarations. *)
Definition unfit (cmd : command) (m : module) (h : header) : Prop :=
  forall order dss, Permutation order (mod_defs m) -> Forall2 (definition_said (mod_defs m)) order dss ->
    h_decls h <> (concat dss ++ variables_said cmd order)%list.

Theorem C57_header_declares_refuted : forall cmd, config_command ["m"] cmd ->
  (exists fs' text h, grammatical smuggled = true /\ run 9 cmd [smuggled] [] = (fs', Ok tt)
     /\ folder_get fs' (header_name cmd "m") = Some text /\ read_header text = Some h
     /\ In (XVar "Int" "x") (h_decls h) /\ unfit cmd smuggled h)
  /\ (exists fs' text h, grammatical swallowed = true /\ run 9 cmd [swallowed] [] = (fs', Ok tt)
     /\ folder_get fs' (header_name cmd "m") = Some text /\ read_header text = Some h
     /\ h_decls h = [XStruct true "S" [mkxfield ["uint8_t"] "b" (Some 1%Z) None]] /\ unfit cmd swallowed h)
  /\ (exists fs' text, grammatical choice_comment = true /\ run 9 cmd [choice_comment] [] = (fs', Ok tt)
     /\ folder_get fs' (header_name cmd "m") = Some text /\ read_header text = None).
Proof.
  assert (ONE : forall (order : list definition) d, Permutation order [d] -> order = [d]).
  { intros order d P. apply Permutation_length_1_inv. apply Permutation_sym. exact P. }
  intros cmd [->|[->|([|] & ->)]].
  1, 2, 3, 4: split; [|split];
  [ do 3 eexists; split; [reflexivity|]; split; [vm_compute; reflexivity|]; split; [vm_compute; reflexivity|];
    split; [vm_compute; reflexivity|]; split; [left; reflexivity|];
    intros order dss P F; apply ONE in P; subst order; inversion F as [|? ? ? ? D F']; subst; inversion F'; subst;
    inversion D; subst; discriminate
  | do 3 eexists; split; [reflexivity|]; split; [vm_compute; reflexivity|]; split; [vm_compute; reflexivity|];
    split; [vm_compute; reflexivity|]; split; [reflexivity|];
    intros order dss P F; apply ONE in P; subst order; inversion F as [|? ? ? ? D F']; subst; inversion F'; subst;
    inversion D as [? ? ? fs FF| | |]; subst; inversion FF as [|? ? ? ? ? FF1]; subst; inversion FF1; subst; discriminate
  | do 2 eexists; split; [reflexivity|]; split; [vm_compute; reflexivity|]; split; [vm_compute; reflexivity|]; vm_compute; reflexivity ].
Qed.
Print Assumptions C57_header_declares_refuted.
