(** * Property C73: without cycles every run ends *)
From Coq Require Import Lia.
From Verif Require Import Base PyNum PyStr Ast Bundle CCommon GenBinary GenCosmos Main Spec_Num Spec_Grammar Spec_Check Spec_Bundle Spec_Gen Spec_Order
  Spec_Failures Spec_Cosmos Bundle_proofs Cosmos_proofs Termination_proofs Fuel_proofs Run_proofs Props_Order Props_Runs Props_Failures.
Open Scope string_scope.
Open Scope list_scope.

(** The fuel of [run] only bounds the number of rounds and the depth of calls:
    a run that ends does the same with more fuel. *)
Theorem C73_more_fuel : forall fuel fuel' cmd input fs, (fuel <= fuel')%nat -> snd (run fuel cmd input fs) <> OutOfFuel ->
  run fuel' cmd input fs = run fuel cmd input fs.
Proof. exact run_more. Qed.
Print Assumptions C73_more_fuel.

(** C73.  Full statement: every run ends, whether it succeeds or fails.  It
    holds, for every command and with as many steps as there are modules and
    definitions, if no module imports from itself and no type contains itself
    within its module, over any number of modules or types.  The input need not
    be valid. *)
Theorem C73_ends_partial : forall cmd input fuel fs,
  Forall (fun m => grammatical m = true) input ->
  acyclic (imports_from input) -> (forall m, In m input -> acyclic (uses_local m)) ->
  (S (length input + length (definitions input)) <= fuel)%nat ->
  snd (run fuel cmd input fs) <> OutOfFuel.
Proof. exact run_ends. Qed.
Print Assumptions C73_ends_partial.

Example C73_sample : Forall (fun m => grammatical m = true) late_modules
  /\ acyclic (imports_from late_modules) /\ (forall m, In m late_modules -> acyclic (uses_local m))
  /\ imports_from late_modules "a" "b" /\ (S (length late_modules + length (definitions late_modules)) <= 5)%nat
  /\ snd (run 5 (GenerateC ["b"; "a"]) late_modules []) <> Ok tt
  /\ snd (run 5 (GenerateCosmos "a" ["S"] "x") late_modules []) = Err NotImplementedErr
  /\ run 1 (GenerateCosmos "a" ["S"] "x") late_modules [] = ([], OutOfFuel).
Proof.
  destruct C72_sample as (G & [V PI PT] & _). split; [exact G|]. split; [exact PI|]. split; [exact PT|].
  split; [|split; [|split; [|split]]].
  - eexists. eexists. split; [right; left; reflexivity|]. split; [reflexivity|]. split; [left; reflexivity|reflexivity].
  - cbn. lia.
  - vm_compute. discriminate.
  - vm_compute. reflexivity.
  - vm_compute. reflexivity.
Qed.

(** The full statement is false: with types that contain each other no number of
    steps is enough for cosmos, though the input is valid.  (For cfs, c and binary
    see C12 and C14, with the same input.) *)
Theorem C73_ends_refuted : exists input m msgs, Forall (fun m => grammatical m = true) input /\ bundle_valid [m] input
    /\ forall fuel fs t, run fuel (GenerateCosmos m msgs t) input fs = (fs, OutOfFuel).
Proof.
  exists recursive_modules, "m", ["A"].
  assert (G : Forall (fun m => grammatical m = true) recursive_modules) by (repeat constructor).
  split; [exact G|]. split; [apply (bundle_accepted_iff _ _ G); eexists; vm_compute; reflexivity|].
  intros fuel fs t. cbn [run]. unfold with_bundle.
  destruct (build_from_cosmos_config recursive_modules) as [b|e|] eqn:E; [|vm_compute in E; discriminate|vm_compute in E; discriminate].
  vm_compute in E. injection E as <-. unfold generate_cosmos.
  match goal with |- context[cosmos_packets fuel ?b _ _] => set (bun := b) end.
  assert (I : forall fuel, forall d, d = mkdref 0 0 (nth 0 (all_defs bun) (DSequence "" None [])) \/ d = mkdref 0 1 (nth 1 (all_defs bun) (DSequence "" None [])) ->
    items_of fuel bun 0 d [] [] = OutOfFuel).
  { clear. induction fuel as [|k IH]; intros d Hd; [reflexivity|].
    destruct k as [|k]; [destruct Hd as [-> | ->]; reflexivity|].
    destruct Hd as [-> | ->].
    - erewrite items_of_sequence by reflexivity. cbn [go_members members_of].
      change (member_info (S k) bun 0 (TName "B")) with (Ok (Nested (mkdref 0 1 (nth 1 (all_defs bun) (DSequence "" None []))))).
      cbn -[items_of]. rewrite IH by auto. reflexivity.
    - erewrite items_of_sequence by reflexivity. cbn -[items_of]. rewrite IH by auto. reflexivity. }
  assert (P : cosmos_packets fuel bun "m" ["A"] = OutOfFuel).
  { unfold cosmos_packets. cbn -[items_of]. rewrite I by auto. reflexivity. }
  rewrite P. reflexivity.
Qed.
Print Assumptions C73_ends_refuted.
