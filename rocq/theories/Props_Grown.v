(** * Property C94: further definitions in the modules *)
From Verif Require Import Base PyNum PyStr Ast Bundle CCommon GenBinary GenCosmos Main Spec_Grammar Spec_Check Spec_Bundle Spec_Gen
  Spec_Files Spec_Failures Spec_Inputs Bundle_proofs Spec_Reorder Spec_Grown Grown_proofs Grown_files_proofs Grown_cosmos_proofs Samples Props_Binary.
Open Scope string_scope.
Open Scope list_scope.

(** C94.  Further definitions in the modules do not change what is generated
    for the others.  For cosmos: if the command succeeds and the modules with
    the further definitions are valid, the output folder is the same. *)
Theorem C94_cosmos : forall mn msgs out input input' fuel fs,
  Forall (fun m => grammatical m = true) input -> Forall (fun m => grammatical m = true) input' -> Forall2 grown input input' ->
  Forall module_valid input' -> clauses_valid (definitions input') -> NoDup (map def_name (definitions input')) ->
  snd (run fuel (GenerateCosmos mn msgs out) input fs) = Ok tt ->
  run fuel (GenerateCosmos mn msgs out) input' fs = run fuel (GenerateCosmos mn msgs out) input fs.
Proof. exact cosmos_grown. Qed.
Print Assumptions C94_cosmos.

(** The sample modules with two further definitions in the first one. *)
Definition further (l : list module) : list module :=
  match l with
  | [] => []
  | m :: r =>
      mkmodule (mod_name m) (mod_comment m) (mod_imports m) (mod_comment_import m)
        (DEnumerated "Further-mode" None [mkenum "off" None None; mkenum "on" None None]
         :: mod_defs m ++ [DSequence "Further-box" None [mkmember "x" TBoolean None None]]) :: r
  end.
Lemma inserted_refl : forall A (l : list A), inserted l l.
Proof. induction l; constructor; assumption. Qed.
Lemma further_grown : forall l, Forall2 grown l (further l).
Proof.
  assert (R : forall l, Forall2 grown l l) by (induction l as [|m l IH]; constructor; [split; try reflexivity; apply inserted_refl|exact IH]).
  intros [|m l]; constructor; [|apply R]. split; try reflexivity. apply ins_new.
  rewrite <- (app_nil_r (mod_defs m)) at 1. apply inserted_app; [apply inserted_refl|apply ins_new, ins_nil].
Qed.
Lemma further_grammatical : Forall (fun m => grammatical m = true) (further sample_modules).
Proof. repeat constructor; vm_compute; reflexivity. Qed.

Example C94_cosmos_sample :
  Forall (fun m => grammatical m = true) sample_modules /\ Forall (fun m => grammatical m = true) (further sample_modules)
  /\ Forall2 grown sample_modules (further sample_modules)
  /\ Forall module_valid (further sample_modules) /\ clauses_valid (definitions (further sample_modules))
  /\ NoDup (map def_name (definitions (further sample_modules)))
  /\ snd (run 9 (GenerateCosmos "sandbox-hk-pc" ["Sandbox-hk-pc"] "hk") sample_modules []) = Ok tt.
Proof.
  assert (V : bundle_valid sample_names (further sample_modules)).
  { apply bundle_accepted_iff; [exact further_grammatical|]. eexists. vm_compute. reflexivity. }
  split; [exact sample_grammatical|]. split; [exact further_grammatical|]. split; [apply further_grown|].
  split; [apply V|]. split; [apply V|]. split; [apply V|]. vm_compute. reflexivity.
Qed.

(** For cfs, c and binary: if the command succeeds on the modules with the
    further definitions and the modules without them are valid, it succeeds on
    these as well and writes no other files.  An image that both runs write is
    the same.  The .h files have the same parts for the definitions both
    modules have, in the same order, with the parts of the further definitions
    between them; only the note of a simple type, which for cfs names the
    modules that use it, may change, and only if a further definition uses the
    type.  The .c files have the same initialisers. *)
Theorem C94_files : forall names cmd input input' fuel' fs fs2,
  config_command names cmd -> Forall (fun m => grammatical m = true) input -> Forall (fun m => grammatical m = true) input' ->
  Forall2 grown input input' -> bundle_valid names input -> run fuel' cmd input' fs = (fs2, Ok tt) ->
  exists F, forall fuel, (F <= fuel)%nat -> exists fs1, run fuel cmd input fs = (fs1, Ok tt)
    /\ (forall f, (forall m', In m' input' -> ~ file_of cmd m' f) -> folder_get fs2 f = folder_get fs1 f)
    /\ forall i m m' f, nth_error input i = Some m -> nth_error input' i = Some m' -> file_of cmd m f ->
       exists t t', folder_get fs1 f = Some t /\ folder_get fs2 f = Some t'
         /\ extended_contents (note_stays cmd input input') m m' f t t'.
Proof. exact definitions_added. Qed.
Print Assumptions C94_files.

Example C94_files_sample :
  config_command ["m"] (GenerateBinary ["m"] (Some LittleEndian))
  /\ Forall (fun m => grammatical m = true) [image_module] /\ Forall (fun m => grammatical m = true) (further [image_module])
  /\ Forall2 grown [image_module] (further [image_module]) /\ bundle_valid ["m"] [image_module]
  /\ snd (run 9 (GenerateBinary ["m"] (Some LittleEndian)) (further [image_module]) []) = Ok tt
  /\ file_of (GenerateBinary ["m"] (Some LittleEndian)) image_module "cmd.bin".
Proof.
  split; [right; right; eexists; reflexivity|]. split; [exact image_grammatical|]. split; [repeat constructor; vm_compute; reflexivity|].
  split; [apply further_grown|]. split; [apply bundle_accepted_iff; [exact image_grammatical|]; eexists; vm_compute; reflexivity|].
  split; [vm_compute; reflexivity|]. right. do 4 eexists. split; [right; right; left; reflexivity|]. split; [left; reflexivity|]. split; [discriminate|reflexivity].
Qed.

(** The notes of cfs do change: a definition added to one module changes the
    file of another one that has no further definition. *)
Definition counts : module := mkmodule "a" None [] None [DSimple "Count" (TInteger (Some (0, 9)%Z)) None].
Definition counters (l : list definition) : module :=
  mkmodule "b" None [mkimport ["Count"] "a" None] None (DSequence "Box" None [mkmember "x" TBoolean None None] :: l).
Definition counter : definition := DSequence "Counter" None [mkmember "n" (TName "Count") None None].

Theorem C94_notes_refuted : exists names input input' fuel fs1 fs2 m f t t',
  Forall (fun m => grammatical m = true) input /\ Forall (fun m => grammatical m = true) input' /\ Forall2 grown input input'
  /\ run fuel (GenerateCfs names) input [] = (fs1, Ok tt) /\ run fuel (GenerateCfs names) input' [] = (fs2, Ok tt)
  /\ nth_error input 0 = Some m /\ nth_error input' 0 = Some m /\ file_of (GenerateCfs names) m f
  /\ folder_get fs1 f = Some t /\ folder_get fs2 f = Some t' /\ ~ extended_header (fun _ => True) m m t t'.
Proof.
  exists ["a"; "b"], [counts; counters []], [counts; counters [counter]], 9%nat. do 2 eexists. exists counts, "a_msg.h". do 2 eexists.
  split; [repeat constructor|]. split; [repeat constructor|].
  split; [constructor; [split; try reflexivity; apply ins_keep, ins_nil|constructor; [split; try reflexivity; apply ins_keep, ins_new, ins_nil|constructor]]|].
  split; [vm_compute; reflexivity|]. split; [vm_compute; reflexivity|]. split; [reflexivity|]. split; [reflexivity|]. split; [left; reflexivity|].
  split; [vm_compute; reflexivity|]. split; [vm_compute; reflexivity|].
  intros H. apply same_module_length in H. revert H. apply Nat.nle_gt. apply Nat.ltb_lt. vm_compute. reflexivity.
Qed.
Print Assumptions C94_notes_refuted.
