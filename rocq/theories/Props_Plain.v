(** * Property C93: comments *)
From Verif Require Import Base PyNum PyStr Ast Processor Bundle CCommon GenBinary GenCosmos Main Spec_Check Spec_Header
  Spec_Plain Plain_runs_proofs Plain_cosmos_proofs Samples.
Open Scope string_scope.
Open Scope list_scope.

(** C93.  Comments decide nothing.  Take modules whose comments contain neither
    brackets nor a comment mark, and the same modules without any comments.
    Every command ends in the same way on both, with the same error if there
    is one.  It leaves the same files.  The contents are the same byte for
    byte, except that comments of the module in question are put into its
    .h and .c file, and descriptions, units and byte orders into the COSMOS
    file.  In particular comments do not change binary images and message
    IDs. *)
Theorem C93_comments : forall fuel cmd input fs, Forall (fun m => Forall clean (module_comments m)) input ->
  snd (run fuel cmd (map plain input) fs) = snd (run fuel cmd input fs)
  /\ Forall2 (same_but_comments cmd input) (fst (run fuel cmd (map plain input) fs)) (fst (run fuel cmd input fs)).
Proof. exact comments_irrelevant. Qed.
Print Assumptions C93_comments.

(** The condition on the comments holds whenever a command succeeds. *)
Theorem C93_success : forall fuel cmd input fs, snd (run fuel cmd input fs) = Ok tt ->
  snd (run fuel cmd (map plain input) fs) = Ok tt
  /\ Forall2 (same_but_comments cmd input) (fst (run fuel cmd (map plain input) fs)) (fst (run fuel cmd input fs)).
Proof. exact success_irrelevant. Qed.
Print Assumptions C93_success.

(** So modules that differ in their comments only behave alike. *)
Theorem C93_two : forall fuel cmd input input' fs, Forall (fun m => Forall clean (module_comments m)) input ->
  Forall (fun m => Forall clean (module_comments m)) input' -> map plain input = map plain input' ->
  snd (run fuel cmd input fs) = snd (run fuel cmd input' fs)
  /\ exists bare, Forall2 (same_but_comments cmd input) bare (fst (run fuel cmd input fs))
                  /\ Forall2 (same_but_comments cmd input') bare (fst (run fuel cmd input' fs)).
Proof. exact two_comments. Qed.
Print Assumptions C93_two.

(** The sample modules have comments in most places; the files show them. *)
Definition sample_names : list string := map mod_name sample_modules.
Lemma sample_clean : Forall (fun m => Forall clean (module_comments m)) sample_modules.
Proof.
  assert (P : exists ms, parse_modules sample_modules = Ok ms) by (eexists; vm_compute; reflexivity).
  destruct P as (ms & P). exact (built_clean _ _ P).
Qed.

Example C93_sample :
  Forall (fun m => Forall clean (module_comments m)) sample_modules /\ map plain sample_modules <> sample_modules
  /\ snd (run 9 (GenerateC sample_names) sample_modules []) = Ok tt
  /\ fst (run 9 (GenerateC sample_names) (map plain sample_modules) []) <> fst (run 9 (GenerateC sample_names) sample_modules [])
  /\ snd (run 9 (GenerateCosmos "sandbox-hk-pc" ["Sandbox-hk-pc"] "hk") sample_modules []) = Ok tt
  /\ fst (run 9 (GenerateCosmos "sandbox-hk-pc" ["Sandbox-hk-pc"] "hk") (map plain sample_modules) [])
     <> fst (run 9 (GenerateCosmos "sandbox-hk-pc" ["Sandbox-hk-pc"] "hk") sample_modules []).
Proof.
  split; [exact sample_clean|]. split; [discriminate|]. split; [vm_compute; reflexivity|]. split; [vm_compute; discriminate|].
  split; [vm_compute; reflexivity|]. vm_compute. discriminate.
Qed.

Example C93_two_sample :
  map plain sample_modules = map plain (map plain sample_modules) /\ map plain sample_modules <> sample_modules
  /\ Forall (fun m => Forall clean (module_comments m)) (map plain sample_modules).
Proof.
  split; [vm_compute; reflexivity|]. split; [discriminate|].
  assert (P : exists ms, parse_modules (map plain sample_modules) = Ok ms) by (eexists; vm_compute; reflexivity).
  destruct P as (ms & P). exact (built_clean _ _ P).
Qed.

(** The condition cannot be dropped: a bracket in a comment makes every command
    fail on a module that is fine without it. *)
Theorem C93_condition_needed : exists input,
  (forall fuel cmd fs, snd (run fuel cmd input fs) = Err AttributeErr)
  /\ snd (run 9 (GenerateC ["m"]) (map plain input) []) = Ok tt.
Proof.
  exists [mkmodule "m" (Some (mkcomment "see [1" "" false)) [] None [DSimple "A" (TInteger (Some (0%Z, 1%Z))) None]].
  split; [intros fuel cmd fs; destruct cmd; reflexivity|vm_compute; reflexivity].
Qed.
Print Assumptions C93_condition_needed.
