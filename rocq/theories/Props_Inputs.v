(** * Properties C84 and C85: runs on the same modules in another order, and on
      more modules *)
From Coq Require Import Permutation.
From Verif Require Import Base PyNum PyStr Ast Bundle CCommon GenBinary GenCosmos Main Spec_Num Spec_Grammar Spec_Check Spec_Bundle Spec_Gen
  Spec_Files Spec_Failures Spec_Inputs Bundle_proofs Inputs_proofs Inputs2_proofs Samples Props_Header.
Open Scope string_scope.
Open Scope list_scope.

(** C84.  The order of the input files, and of the names listed for
    --asn1-modules, does not matter: if a run succeeds, so does the run on the
    same modules in another order, and every file of the output folder is the
    same.  For cfs, c and binary: *)
Theorem C84_order : forall names names' cmd cmd' input input' fuel fs fs1,
  config_command names cmd -> config_command names' cmd' -> same_command cmd cmd' -> Permutation names names' ->
  Forall (fun m => grammatical m = true) input -> Permutation input input' ->
  run fuel cmd input fs = (fs1, Ok tt) ->
  exists F, forall fuel', (F <= fuel')%nat ->
    exists fs2, run fuel' cmd' input' fs = (fs2, Ok tt) /\ same_files fs1 fs2.
Proof. exact order_same. Qed.
Print Assumptions C84_order.

Example C84_sample :
  config_command sample_names (GenerateCfs sample_names) /\ Forall (fun m => grammatical m = true) sample_modules
  /\ Permutation sample_modules (rev sample_modules)
  /\ snd (run 9 (GenerateCfs sample_names) sample_modules []) = Ok tt.
Proof.
  split; [left; reflexivity|]. split; [exact sample_grammatical|]. split; [apply Permutation_rev|].
  vm_compute. reflexivity.
Qed.

(** For cosmos it holds if no two modules have the same name; the run is even
    the same with the same fuel. *)
Theorem C84_cosmos_order_partial : forall mn msgs out input input' fuel fs fs1,
  Forall (fun m => grammatical m = true) input -> NoDup (map mod_name input) -> Permutation input input' ->
  run fuel (GenerateCosmos mn msgs out) input fs = (fs1, Ok tt) ->
  run fuel (GenerateCosmos mn msgs out) input' fs = (fs1, Ok tt).
Proof. exact cosmos_order. Qed.
Print Assumptions C84_cosmos_order_partial.

Example C84_cosmos_sample :
  Forall (fun m => grammatical m = true) sample_modules /\ NoDup (map mod_name sample_modules)
  /\ Permutation sample_modules (rev sample_modules)
  /\ snd (run 9 (GenerateCosmos "sandbox-hk-pc" ["Sandbox-hk-pc"] "hk") sample_modules []) = Ok tt.
Proof.
  split; [exact sample_grammatical|]. split; [repeat constructor; cbn; intuition discriminate|]. split; [apply Permutation_rev|].
  vm_compute. reflexivity.
Qed.

(** Of two modules with the same name cosmos takes the first. *)
Theorem C84_cosmos_order_refuted : exists mn msgs out input input' fuel fs1 e,
  Forall (fun m => grammatical m = true) input /\ Permutation input input'
  /\ run fuel (GenerateCosmos mn msgs out) input [] = (fs1, Ok tt)
  /\ forall fuel', run fuel' (GenerateCosmos mn msgs out) input' [] = ([], Err e).
Proof.
  pose (m := fun n => mkmodule "twin" None [] None [DSequence n None [mkmember "on" TBoolean None None]]).
  exists "twin", ["First"], "out", [m "First"; m "Second"], [m "Second"; m "First"], 3%nat. do 2 eexists.
  split; [repeat constructor|]. split; [apply perm_swap|]. split; [vm_compute; reflexivity|]. intros fuel. vm_compute. reflexivity.
Qed.
Print Assumptions C84_cosmos_order_refuted.

(** C85.  Further modules do not change the files of a module: if the run
    succeeds with and without them, then every file of a module of the smaller
    run has the same content in both.  For c and binary without condition: *)
Theorem C85_files_kept : forall names names' cmd cmd' input input' fuel fuel' fs fs' fs1 fs2 m f,
  config_command names cmd -> config_command names' cmd' -> same_command cmd cmd' -> cmd <> GenerateCfs names ->
  Forall (fun m => grammatical m = true) input' -> incl input input' ->
  run fuel cmd input fs = (fs1, Ok tt) -> run fuel' cmd' input' fs' = (fs2, Ok tt) ->
  In m input -> file_of cmd m f ->
  exists text, folder_get fs1 f = Some text /\ folder_get fs2 f = Some text.
Proof.
  intros names names' cmd cmd' input input' fuel fuel' fs fs' fs1 fs2 m f Hc Hc' S Nc G I R R' M F.
  apply (others_same names names' cmd cmd' input input' fuel fuel' fs fs' fs1 fs2 m f); auto.
  destruct Hc as [->|[->|(e & ->)]]; [congruence|exact Logic.I..].
Qed.
Print Assumptions C85_files_kept.

(** Another module that uses a type of [used_module]. *)
Definition another_module : module :=
  mkmodule "another" None [mkimport ["Uint16-t"] "used" None] None
    [DSequence "Other" None [mkmember "id" (TName "Uint16-t") None None]].

Example C85_sample :
  Forall (fun m => grammatical m = true) [another_module; using_module; used_module]
  /\ incl [using_module; used_module] [another_module; using_module; used_module]
  /\ snd (run 9 (GenerateC ["used"; "using-it"]) [using_module; used_module] []) = Ok tt
  /\ snd (run 9 (GenerateC ["used"; "another"; "using-it"]) [another_module; using_module; used_module] [("used.h", "old")]) = Ok tt.
Proof.
  split; [repeat constructor|]. split; [intros x X; right; exact X|]. split; vm_compute; reflexivity.
Qed.

(** For cfs, if the simple types of the module are not used in the further
    modules: the comment of a simple type names the modules using it. *)
Theorem C85_cfs_files_kept_partial : forall names names' input input' fuel fuel' fs fs' fs1 fs2 m f,
  Forall (fun m => grammatical m = true) input' -> incl input input' ->
  run fuel (GenerateCfs names) input fs = (fs1, Ok tt) -> run fuel' (GenerateCfs names') input' fs' = (fs2, Ok tt) ->
  In m input -> file_of (GenerateCfs names) m f -> simple_types_private m input input' ->
  exists text, folder_get fs1 f = Some text /\ folder_get fs2 f = Some text.
Proof.
  intros names names' input input' fuel fuel' fs fs' fs1 fs2 m f G I R R' M F P.
  apply (others_same names names' (GenerateCfs names) (GenerateCfs names') input input' fuel fuel' fs fs' fs1 fs2 m f); auto;
    [left; reflexivity..|exact Logic.I].
Qed.
Print Assumptions C85_cfs_files_kept_partial.

Example C85_cfs_sample :
  simple_types_private using_module [using_module; used_module] [another_module; using_module; used_module]
  /\ ~ simple_types_private used_module [using_module; used_module] [another_module; using_module; used_module]
  /\ snd (run 9 (GenerateCfs ["used"; "using-it"]) [using_module; used_module] []) = Ok tt
  /\ snd (run 9 (GenerateCfs ["used"; "another"; "using-it"]) [another_module; using_module; used_module] []) = Ok tt.
Proof.
  split; [|split; [|split; vm_compute; reflexivity]].
  - intros n t c u H. cbn in H. intuition discriminate.
  - intros P. specialize (P "Uint16-t" _ None another_module (or_introl eq_refl) (or_introl eq_refl)).
    destruct P as [P|[P|[]]]; [|discriminate P..]. exists (DSequence "Other" None [mkmember "id" (TName "Uint16-t") None None]). eexists.
    split; [left; reflexivity|]. split; [left; reflexivity|]. split; reflexivity.
Qed.

Theorem C85_cfs_files_kept_refuted : exists names names' input input' fs1 fs2 m f,
  Forall (fun m => grammatical m = true) input' /\ incl input input'
  /\ run 9 (GenerateCfs names) input [] = (fs1, Ok tt) /\ run 9 (GenerateCfs names') input' [] = (fs2, Ok tt)
  /\ In m input /\ file_of (GenerateCfs names) m f /\ folder_get fs1 f <> folder_get fs2 f.
Proof.
  exists ["used"; "using-it"], ["used"; "another"; "using-it"], [using_module; used_module], [another_module; using_module; used_module].
  do 2 eexists. exists used_module, "used_msg.h".
  split; [repeat constructor|]. split; [intros x X; right; exact X|]. split; [vm_compute; reflexivity|]. split; [vm_compute; reflexivity|].
  split; [right; left; reflexivity|]. split; [left; reflexivity|]. vm_compute. discriminate.
Qed.
Print Assumptions C85_cfs_files_kept_refuted.

(** Modules that are not imported can be left out: if the run on all modules
    succeeds, so does the run on a part that imports nothing from the rest. *)
Theorem C85_part_succeeds : forall names names' cmd cmd' input input' fuel' fs',
  config_command names cmd -> config_command names' cmd' -> same_command cmd cmd' ->
  Forall (fun m => grammatical m = true) input' -> self_contained input input' ->
  NoDup names -> same_names names (map mod_name input) ->
  snd (run fuel' cmd' input' fs') = Ok tt ->
  exists F, forall fuel fs, (F <= fuel)%nat -> snd (run fuel cmd input fs) = Ok tt.
Proof. exact part_succeeds. Qed.
Print Assumptions C85_part_succeeds.

Example C85_part_sample : self_contained [using_module; used_module] [another_module; using_module; used_module]
  /\ ~ self_contained [using_module] [another_module; using_module; used_module].
Proof.
  split.
  - constructor.
    + intros x X. right. exact X.
    + repeat constructor; cbn; intuition discriminate.
    + intros m it [<-|[<-|[]]] H; cbn in H; [|destruct H]. destruct H as [<-|[]]. exists used_module. split; [right; left; reflexivity|].
      split; [reflexivity|]. intros x [<-|[<-|[]]]; cbn; auto.
  - intros [_ _ H]. destruct (H using_module _ (or_introl eq_refl) (or_introl eq_refl)) as (im & [<-|[]] & E & _). discriminate E.
Qed.

(** The cosmos command ends in the same way and leaves the same folder with and
    without further modules, if these are valid and no two modules have the same
    name. *)
Theorem C85_cosmos_same_partial : forall mn msgs out input input' fuel fs,
  Forall (fun m => grammatical m = true) input' -> NoDup (map mod_name input') -> self_contained input input' ->
  Forall module_valid input' -> imports_resolve input' -> clauses_valid (definitions input') ->
  NoDup (map def_name (definitions input')) ->
  In mn (map mod_name input) ->
  run fuel (GenerateCosmos mn msgs out) input fs = run fuel (GenerateCosmos mn msgs out) input' fs.
Proof.
  intros mn msgs out input input' fuel fs G N S V Im C D H. apply cosmos_whole; assumption.
Qed.
Print Assumptions C85_cosmos_same_partial.

Example C85_cosmos_sample :
  let input' := [another_module; using_module; used_module] in
  NoDup (map mod_name input')
  /\ Forall module_valid input' /\ imports_resolve input' /\ clauses_valid (definitions input') /\ NoDup (map def_name (definitions input'))
  /\ snd (run 9 (GenerateCosmos "using-it" ["Outer"] "out") [using_module; used_module] []) = Ok tt.
Proof.
  cbv zeta. assert (N : NoDup (map mod_name [another_module; using_module; used_module])) by (repeat constructor; cbn; intuition discriminate).
  split; [exact N|].
  assert (A : exists b, build_from_cosmos_config [another_module; using_module; used_module] = Ok b) by (eexists; vm_compute; reflexivity).
  apply cosmos_accepted_iff in A; [|repeat constructor|exact N]. destruct A as (A1 & A2 & A3 & A4). repeat (split; [assumption|]).
  vm_compute. reflexivity.
Qed.

(** A further module with the name of the module asked for takes its place. *)
Theorem C85_cosmos_same_refuted : exists mn msgs out input input' fs1 e,
  Forall (fun m => grammatical m = true) input' /\ self_contained input input' /\ In mn (map mod_name input)
  /\ Forall module_valid input' /\ imports_resolve input' /\ NoDup (map def_name (definitions input'))
  /\ run 3 (GenerateCosmos mn msgs out) input [] = (fs1, Ok tt) /\ run 3 (GenerateCosmos mn msgs out) input' [] = ([], Err e).
Proof.
  pose (m := fun n => mkmodule "twin" None [] None [DSequence n None [mkmember "on" TBoolean None None]]).
  exists "twin", ["First"], "out", [m "First"], [m "Second"; m "First"]. do 2 eexists.
  assert (V : forall n, In n ["First"; "Second"] -> module_valid (m n)).
  { intros n H. assert (A : exists b, build_from_cosmos_config [m n] = Ok b) by (destruct H as [<-|[<-|[]]]; eexists; vm_compute; reflexivity).
    apply cosmos_accepted_iff in A; [|destruct H as [<-|[<-|[]]]; repeat constructor|repeat constructor; auto]. destruct A as (A & _).
    inversion A. assumption. }
  split; [repeat constructor|]. split; [|split; [left; reflexivity|split; [|split; [|split; [|split; vm_compute; reflexivity]]]]].
  - constructor; [intros x X; right; exact X|repeat constructor; auto|]. intros x it [<-|[]] [].
  - constructor; [apply V; right; left; reflexivity|constructor; [apply V; left; reflexivity|constructor]].
  - intros x it [<-|[<-|[]]] [].
  - repeat constructor; cbn; intuition discriminate.
Qed.
Print Assumptions C85_cosmos_same_refuted.
