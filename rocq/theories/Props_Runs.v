(** * Properties C58-C60: which inputs the c, cfs and binary commands process *)
From Coq Require Import Relations.
From Verif Require Import Base PyNum PyStr Ast Bundle CCommon GenBinary Main Spec_Num Spec_Grammar Spec_Check Spec_Bundle Spec_Order Spec_Size
  Spec_Layout Spec_Cfs Spec_Binary Spec_Runs Runs_proofs Runs2_proofs.
Open Scope string_scope.

(** C58.  The c command succeeds exactly for the input that is [processable]
    (Spec_Runs): valid, without cyclic imports or types, and with a C type for
    every member of a SEQUENCE.  The number of steps given is enough. *)
Theorem C58_c_succeeds : forall names input fs, Forall (fun m => grammatical m = true) input ->
  (forall fuel, snd (run fuel (GenerateC names) input fs) = Ok tt -> processable names input)
  /\ (processable names input -> forall fuel, (S (length input + length (definitions input)) <= fuel)%nat ->
      snd (run fuel (GenerateC names) input fs) = Ok tt).
Proof. intros names input fs Hg. exact (c_run_iff names input Hg fs). Qed.
Print Assumptions C58_c_succeeds.

(** C59.  The cfs command in addition needs primary headers that can be
    encoded and a size for each simple type in use. *)
Theorem C59_cfs_succeeds : forall names input fs, Forall (fun m => grammatical m = true) input ->
  (forall fuel, snd (run fuel (GenerateCfs names) input fs) = Ok tt -> processable names input /\ cfs_processable input)
  /\ (processable names input -> cfs_processable input ->
      forall fuel, (S (length input + length (definitions input)) <= fuel)%nat ->
      snd (run fuel (GenerateCfs names) input fs) = Ok tt).
Proof. intros names input fs Hg. exact (cfs_run_iff names input Hg fs). Qed.
Print Assumptions C59_cfs_succeeds.

(** C60.  The binary command in addition needs, in modules with clauses, a
    size for each member without clause and an image of each clause. *)
Theorem C60_binary_succeeds : forall names e input fs, Forall (fun m => grammatical m = true) input ->
  (forall fuel, snd (run fuel (GenerateBinary names e) input fs) = Ok tt -> processable names input /\ binary_processable e input)
  /\ (processable names input -> binary_processable e input ->
      forall fuel, (S (length input + length (definitions input)) <= fuel)%nat ->
      snd (run fuel (GenerateBinary names e) input fs) = Ok tt).
Proof. intros names e input fs Hg. exact (binary_run_iff names input Hg e fs). Qed.
Print Assumptions C60_binary_succeeds.

(** Such input, with an import and every kind of definition. *)
Definition types_module : module :=
  mkmodule "types" None [] None
    [DSimple "Uint8-t" (TInteger (Some (0, 255)%Z)) None;
     DSimple "Level" (TInteger (Some (-5, 5)%Z)) None;
     DEnumerated "Mode" None [mkenum "off" None None; mkenum "on" None None; mkenum "safe" None None]].
Definition data_module : module :=
  mkmodule "data" None [mkimport ["Uint8-t"; "Level"; "Mode"] "types" None] None
    [DSequence "Outer" None
       [mkmember "inner" (TName "Inner") None (Some (WC None [WI "count" (VInt 3) None; WI "id" (VInt 200) None]));
        mkmember "modes" (TArray 4 (TName "Mode")) None None];
     DSequence "Inner" None
       [mkmember "count" (TInteger (Some (0, 255)%Z)) None None; mkmember "id" (TName "Uint8-t") None None;
        mkmember "level" (TName "Level") None None;
        mkmember "name" (TString IA5String 8) None None; mkmember "on" TBoolean None None];
     DChoice "Either" None [mkmember "a" (TName "Inner") None None; mkmember "b" (TName "Outer") None None]].
Definition sample : list module := [data_module; types_module].
Definition sample_names : list string := ["data"; "types"].

Example C58_C60_sample :
  Forall (fun m => grammatical m = true) sample
  /\ processable sample_names sample /\ cfs_processable sample /\ binary_processable (Some BigEndian) sample.
Proof.
  assert (G : Forall (fun m => grammatical m = true) sample) by (repeat constructor).
  split; [exact G|].
  destruct (proj1 (C59_cfs_succeeds sample_names sample [] G) 9%nat) as (P & Q); [vm_compute; reflexivity|].
  destruct (proj1 (C60_binary_succeeds sample_names (Some BigEndian) sample [] G) 9%nat) as (_ & R); [vm_compute; reflexivity|].
  auto.
Qed.

(** Input that is valid but not processable: an array of numbers. *)
Definition numbers_module : module :=
  mkmodule "numbers" None [] None
    [DSequence "List" None [mkmember "values" (TArray 4 (TInteger (Some (0, 7)%Z))) None None]].
Example C58_sample_fails : bundle_valid ["numbers"] [numbers_module] /\ ~ processable ["numbers"] [numbers_module]
  /\ forall fuel fs, snd (run fuel (GenerateC ["numbers"]) [numbers_module] fs) <> Ok tt.
Proof.
  assert (G : Forall (fun m => grammatical m = true) [numbers_module]) by (repeat constructor).
  assert (N : ~ processable ["numbers"] [numbers_module]).
  { intros [_ _ _ M]. specialize (M "List" None _ _ (or_introl eq_refl) (or_introl eq_refl)).
    inversion M as [E|k n E|[(r & E)|(r & E)] D|n t' c E|n d E]; discriminate. }
  split; [|split; [exact N|]].
  - apply (Bundle_proofs.bundle_accepted_iff _ _ G). eexists. vm_compute. reflexivity.
  - intros fuel fs H. apply N. eapply (proj1 (C58_c_succeeds _ _ fs G)). exact H.
Qed.
