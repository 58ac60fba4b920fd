(** * Property C92: the order of the definitions in a module *)
From Coq Require Import Permutation.
From Verif Require Import Base PyNum PyStr Ast Bundle CCommon GenBinary GenCosmos Main Spec_Grammar Spec_Bundle Spec_Gen
  Spec_Files Spec_Failures Spec_Inputs Bundle_proofs Spec_Reorder Reorder_proofs Reorder_files_proofs Reorder_cosmos_proofs Samples Props_C Props_Binary.
Open Scope string_scope.
Open Scope list_scope.

(** C92.  The definitions of a module may stand in any order: if a run
    succeeds, so does the run on modules with the same definitions in another
    order.  For cosmos the output folder is the same: *)
Theorem C92_cosmos : forall mn msgs out input input' fuel fs,
  Forall (fun m => grammatical m = true) input -> Forall2 reordered input input' ->
  snd (run fuel (GenerateCosmos mn msgs out) input fs) = Ok tt ->
  run fuel (GenerateCosmos mn msgs out) input' fs = run fuel (GenerateCosmos mn msgs out) input fs.
Proof. exact cosmos_reordered. Qed.
Print Assumptions C92_cosmos.

(** The sample modules with their definitions from last to first. *)
Definition backwards (m : module) : module :=
  mkmodule (mod_name m) (mod_comment m) (mod_imports m) (mod_comment_import m) (rev (mod_defs m)).
Lemma backwards_reordered : forall l, Forall2 reordered l (map backwards l).
Proof. induction l as [|m l IH]; constructor; [|exact IH]. split; try reflexivity. apply Permutation_rev. Qed.

Example C92_cosmos_sample :
  Forall (fun m => grammatical m = true) sample_modules /\ Forall2 reordered sample_modules (map backwards sample_modules)
  /\ map backwards sample_modules <> sample_modules
  /\ snd (run 9 (GenerateCosmos "sandbox-hk-pc" ["Sandbox-hk-pc"] "hk") sample_modules []) = Ok tt.
Proof.
  split; [exact sample_grammatical|]. split; [apply backwards_reordered|]. split; [discriminate|]. vm_compute. reflexivity.
Qed.

(** For cfs, c and binary the same files are written.  The binary images are
    the same, byte for byte.  The .h files consist of the same parts, one for
    each definition and place, and differ only in the order of these parts.
    So do the .c files, except for the line that includes the header.
    Missing for C92: that line. *)
Theorem C92_files_partial : forall names cmd input input' fuel fs fs1,
  config_command names cmd -> Forall (fun m => grammatical m = true) input -> Forall2 reordered input input' ->
  run fuel cmd input fs = (fs1, Ok tt) ->
  exists F, forall fuel', (F <= fuel')%nat -> exists fs2, run fuel' cmd input' fs = (fs2, Ok tt)
    /\ (forall f, (forall m, In m input -> ~ file_of cmd m f) -> folder_get fs2 f = folder_get fs1 f)
    /\ forall i m m' f, nth_error input i = Some m -> nth_error input' i = Some m' -> file_of cmd m f ->
       exists t t', folder_get fs1 f = Some t /\ folder_get fs2 f = Some t' /\ same_contents m m' f t t'.
Proof. exact definitions_reordered. Qed.
Print Assumptions C92_files_partial.

Example C92_files_sample :
  config_command ["m"] (GenerateBinary ["m"] (Some LittleEndian))
  /\ Forall (fun m => grammatical m = true) [image_module] /\ Forall2 reordered [image_module] (map backwards [image_module])
  /\ map backwards [image_module] <> [image_module]
  /\ snd (run 9 (GenerateBinary ["m"] (Some LittleEndian)) [image_module] []) = Ok tt
  /\ file_of (GenerateBinary ["m"] (Some LittleEndian)) image_module "cmd.bin".
Proof.
  split; [right; right; eexists; reflexivity|]. split; [exact image_grammatical|]. split; [apply backwards_reordered|]. split; [discriminate|].
  split; [vm_compute; reflexivity|]. right. do 4 eexists. split; [right; right; left; reflexivity|]. split; [left; reflexivity|]. split; [discriminate|reflexivity].
Qed.

(** The .c files may differ in more than the order: the header is included in
    one of these two and not in the other. *)
Theorem C92_files_refuted : exists names input input' fuel fs1 fs2 m m' f t t',
  Forall (fun m => grammatical m = true) input /\ Forall2 reordered input input'
  /\ run fuel (GenerateC names) input [] = (fs1, Ok tt) /\ run fuel (GenerateC names) input' [] = (fs2, Ok tt)
  /\ nth_error input 0 = Some m /\ nth_error input' 0 = Some m' /\ file_of (GenerateC names) m f
  /\ folder_get fs1 f = Some t /\ folder_get fs2 f = Some t' /\ ~ rearranged m m' t t'.
Proof.
  exists ["m"], [lost_include], [backwards lost_include], 9%nat. do 2 eexists. exists lost_include, (backwards lost_include), "m.c". do 2 eexists.
  split; [repeat constructor|]. split; [apply backwards_reordered|]. split; [vm_compute; reflexivity|]. split; [vm_compute; reflexivity|].
  split; [reflexivity|]. split; [reflexivity|]. split; [right; reflexivity|]. split; [vm_compute; reflexivity|]. split; [vm_compute; reflexivity|].
  intros H. apply rearranged_length in H; [|destruct (backwards_reordered [lost_include]) as [|x y l l' S _]]; [vm_compute in H; discriminate| |].
  - split; try reflexivity. apply Permutation_rev.
  - split; try reflexivity. apply Permutation_rev.
Qed.
Print Assumptions C92_files_refuted.
