(** * Property C86: the commands declare the same types *)
From Coq Require Import Permutation.
From Verif Require Import Base PyNum PyStr Ast Bundle CCommon Main Spec_Grammar Spec_Gen Spec_C Spec_Header Spec_Printed Spec_Check Spec_Bundle Spec_Agree Agree_proofs Samples Props_Header.
Open Scope string_scope.
Open Scope list_scope.

(** C86.  The header of a module contains the same declarations of types in the
    same order, character for character, and includes the same system headers,
    whichever of the commands cfs, c and binary wrote it, and whatever further
    modules the run read.  Only the guard, the names of included files, the
    notes on simple types and the variables of command c are the command's
    own ([header_text], C95). *)
Theorem C86_same_text : forall names names' cmd cmd' fuel fuel' input input' fs fs' fs1 fs2 m,
  config_command names cmd -> config_command names' cmd' ->
  Forall (fun m => grammatical m = true) input' -> incl input input' ->
  run fuel cmd input fs = (fs1, Ok tt) -> run fuel' cmd' input' fs' = (fs2, Ok tt) ->
  In m input ->
  exists order pieces std notes notes',
    folder_get fs1 (header_name cmd (mod_name m)) = Some (header_text cmd m order std notes (map snd pieces))
    /\ folder_get fs2 (header_name cmd' (mod_name m)) = Some (header_text cmd' m order std notes' (map snd pieces))
    /\ Permutation order (mod_defs m)
    /\ Forall2 (note_printed cmd input) order notes /\ Forall2 (note_printed cmd' input') order notes'
    /\ Forall2 (fun d p => definition_printed (definitions input) d (fst p) (snd p)) order pieces.
Proof. exact same_text. Qed.
Print Assumptions C86_same_text.

(** Read as C, which needs comments that do no harm ([quiet], C57), the two
    headers declare the same types. *)
Theorem C86_same_types : forall names names' cmd cmd' fuel fuel' input input' fs fs' fs1 fs2 m,
  config_command names cmd -> config_command names' cmd' ->
  Forall (fun m => grammatical m = true) input' -> incl input input' ->
  run fuel cmd input fs = (fs1, Ok tt) -> run fuel' cmd' input' fs' = (fs2, Ok tt) ->
  In m input -> quiet m ->
  exists h h', header_reads cmd fs1 (mod_name m) h /\ header_reads cmd' fs2 (mod_name m) h'
    /\ types_of h = types_of h' /\ systems_of h = systems_of h'.
Proof. exact same_types. Qed.
Print Assumptions C86_same_types.

(** Two commands, the second with a further module; the texts differ. *)
Definition third_module : module :=
  mkmodule "third" None [mkimport ["Mode"] "used" None] None [DSequence "Third" None [mkmember "mode" (TName "Mode") None None]].

Example C86_sample : exists fs1 fs2,
  Forall (fun m => grammatical m = true) [third_module; using_module; used_module]
  /\ incl [using_module; used_module] [third_module; using_module; used_module] /\ quiet using_module
  /\ run 9 (GenerateCfs ["used"; "using-it"]) [using_module; used_module] [] = (fs1, Ok tt)
  /\ run 9 (GenerateC ["third"; "used"; "using-it"]) [third_module; using_module; used_module] [] = (fs2, Ok tt)
  /\ (exists h, header_reads (GenerateCfs ["used"; "using-it"]) fs1 "using-it" h /\ length (types_of h) = 3%nat)
  /\ folder_get fs1 "using_it_msg.h" <> folder_get fs2 "using_it.h".
Proof.
  do 2 eexists. split; [repeat constructor|]. split; [intros x X; right; exact X|]. split; [destruct C57_sample as (? & _ & _ & _ & Q & _); exact Q|].
  split; [vm_compute; reflexivity|]. split; [vm_compute; reflexivity|]. split.
  - eexists. split; [eexists; split; vm_compute; reflexivity|vm_compute; reflexivity].
  - vm_compute. discriminate.
Qed.
