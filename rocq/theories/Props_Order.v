(** * Properties C11-C14: the order of modules and definitions *)
From Coq Require Import Permutation Relations.
From Verif Require Import Base PyNum PyStr Ast Bundle Sorter CCommon Main Spec_Check Spec_Grammar Spec_Bundle
  Spec_Gen Spec_Order Order_proofs Run_proofs Samples.
Open Scope string_scope.

(** C11: with acyclic imports as many rounds as there are modules are enough,
    every module is there once, and an importer comes before what it imports. *)
Theorem C11_modules_ordered : forall names input b fuel, build_from_config names input = Ok b ->
  acyclic (imports_from input) -> (List.length input <= fuel)%nat ->
  exists l, get_modules_ordered fuel b = Ok l /\ Permutation l (b_modules b)
    /\ forall i j mi mj, nth_error l i = Some mi -> nth_error l j = Some mj ->
         In (bm_name mj) (map imp_module (mod_imports (bm_mod mi))) -> (i < j)%nat.
Proof. exact modules_ordered. Qed.
Print Assumptions C11_modules_ordered.

(** Whatever the imports, an order that is returned is right. *)
Theorem C11_order_sound : forall names input b fuel l, build_from_config names input = Ok b ->
  get_modules_ordered fuel b = Ok l ->
  Permutation l (b_modules b)
  /\ forall i j mi mj, nth_error l i = Some mi -> nth_error l j = Some mj ->
       In (bm_name mj) (map imp_module (mod_imports (bm_mod mi))) -> (i < j)%nat.
Proof. exact order_sound. Qed.
Print Assumptions C11_order_sound.

(** The imports of the sample go down in this numbering. *)
Definition sample_rank (n : string) : nat :=
  if n =? "sandbox-hk-pc" then 3 else if n =? "cfe-headers" then 2
  else if n =? "ccsds-headers" then 1 else 0.

Lemma rank_acyclic : forall (R : string -> string -> Prop) (rank : string -> nat),
  (forall x y, R x y -> (rank y < rank x)%nat) -> acyclic R.
Proof.
  intros R rank H (x & C).
  assert (G : forall y z, clos_trans string R y z -> (rank z < rank y)%nat).
  { intros y z T. induction T as [y z T|y u z _ IH1 _ IH2]; [auto|eapply PeanoNat.Nat.lt_trans; eassumption]. }
  apply (PeanoNat.Nat.lt_irrefl _ (G _ _ C)).
Qed.

Example C11_sample : acyclic (imports_from sample_modules)
  /\ exists b l, build_from_config sample_names sample_modules = Ok b
     /\ get_modules_ordered 4 b = Ok l
     /\ map bm_name l = ["sandbox-hk-pc"; "cfe-headers"; "ccsds-headers"; "simple-types"].
Proof.
  split.
  - apply (rank_acyclic _ sample_rank). intros x y (m & it & Hm & <- & Hit & <-).
    repeat (destruct Hm as [<-|Hm]; [simpl in Hit; repeat (destruct Hit as [<-|Hit]; [vm_compute; repeat constructor|]);
      destruct Hit|]). destruct Hm.
  - do 2 eexists. split; [vm_compute; reflexivity|]. split; [vm_compute; reflexivity|]. reflexivity.
Qed.

(** C12.  Full statement: with circular imports the cfs, c and binary commands
    fail with an error.  False of every such bundle: if it passes validation
    the ordering loop does not end, whatever the number of rounds, and nothing
    is written. *)
Theorem C12_cyclic_imports_hang : forall names cmd fuel input fs b, config_command names cmd ->
  build_from_config names input = Ok b -> cyclic (imports_from input) ->
  run fuel cmd input fs = (fs, OutOfFuel).
Proof. exact run_cyclic. Qed.
Print Assumptions C12_cyclic_imports_hang.

Definition circular_modules : list module :=
  [mkmodule "a" None [mkimport ["B"] "b" None] None
     [DSequence "A" None [mkmember "x" TBoolean None None]; DSequence "A2" None [mkmember "y" (TName "B") None None]];
   mkmodule "b" None [mkimport ["A"] "a" None] None
     [DSequence "B" None [mkmember "x" TBoolean None None]; DSequence "B2" None [mkmember "y" (TName "A") None None]]].

Lemma circular_cyclic : cyclic (imports_from circular_modules).
Proof.
  exists "a". apply t_trans with (y := "b"); apply t_step.
  - exists (nth 0 circular_modules (mkmodule "" None [] None [])), (mkimport ["B"] "b" None).
    repeat split; left; reflexivity.
  - exists (nth 1 circular_modules (mkmodule "" None [] None [])), (mkimport ["A"] "a" None).
    split; [right; left; reflexivity|]. repeat split. left. reflexivity.
Qed.

Theorem C12_cyclic_imports_rejected_refuted : exists names input,
  Forall (fun m => grammatical m = true) input /\ cyclic (imports_from input)
  /\ forall cmd fuel fs, config_command names cmd -> run fuel cmd input fs = (fs, OutOfFuel).
Proof.
  exists ["a"; "b"], circular_modules. split; [repeat constructor|]. split; [exact circular_cyclic|].
  intros cmd fuel fs Hc.
  destruct (build_from_config ["a"; "b"] circular_modules) as [b| |] eqn:E; [|vm_compute in E; discriminate..].
  exact (run_cyclic _ _ _ _ _ _ Hc E circular_cyclic).
Qed.
Print Assumptions C12_cyclic_imports_rejected_refuted.

(** C13: with non-recursive types as many rounds as there are definitions are
    enough, every definition is there once, and after the definitions its
    members use.  (A module importing itself is a circular import: C12.) *)
Theorem C13_definitions_ordered : forall names input b bm fuel,
  Forall (fun m => grammatical m = true) input -> build_from_config names input = Ok b ->
  In bm (b_modules b) -> ~ In (bm_name bm) (map imp_module (mod_imports (bm_mod bm))) ->
  acyclic (uses_local (bm_mod bm)) -> (List.length (mod_defs (bm_mod bm)) <= fuel)%nat ->
  exists l, sorted_definitions fuel (bm_mod bm) = Ok l /\ Permutation l (mod_defs (bm_mod bm))
    /\ forall i j di dj k, nth_error l i = Some di -> nth_error l j = Some dj ->
         In k (members_of di) -> element (m_type k) = TName (def_name dj) -> (j < i)%nat.
Proof. exact definitions_ordered. Qed.
Print Assumptions C13_definitions_ordered.

(** A module written users first. *)
Definition backwards_module : module :=
  mkmodule "m" None [] None
    [DSequence "C" None [mkmember "x" (TName "B") None None; mkmember "y" (TArray 3 (TName "A")) None None];
     DChoice "B" None [mkmember "x" (TName "A") None None];
     DSequence "A" None [mkmember "x" TBoolean None None]].

Example C13_sample :
  (exists b, build_from_config ["m"] [backwards_module] = Ok b
     /\ map bm_mod (b_modules b) = [backwards_module])
  /\ grammatical backwards_module = true
  /\ ~ In "m" (map imp_module (mod_imports backwards_module))
  /\ acyclic (uses_local backwards_module)
  /\ exists l, sorted_definitions 3 backwards_module = Ok l /\ map def_name l = ["A"; "B"; "C"].
Proof.
  split; [eexists; split; [vm_compute; reflexivity|reflexivity]|]. split; [reflexivity|].
  split; [intros []|]. split.
  - apply (rank_acyclic _ (fun n => if String.eqb n "C" then 2 else if String.eqb n "B" then 1 else 0)%nat).
    intros x y (d & k & Hd & <- & Hk & E & _).
    repeat (destruct Hd as [<-|Hd]; [simpl in Hk; repeat (destruct Hk as [<-|Hk];
      [simpl in E; (discriminate || (injection E as <-; vm_compute; repeat constructor))|]); destruct Hk|]).
    destruct Hd.
  - eexists. split; [vm_compute; reflexivity|reflexivity].
Qed.

(** C14.  Full statement: recursive types make generation fail with an error.
    False: the sorting loop does not end. *)
Theorem C14_recursive_types_hang : forall names input b bm fuel,
  Forall (fun m => grammatical m = true) input -> build_from_config names input = Ok b ->
  In bm (b_modules b) -> ~ In (bm_name bm) (map imp_module (mod_imports (bm_mod bm))) ->
  cyclic (uses_local (bm_mod bm)) -> sorted_definitions fuel (bm_mod bm) = OutOfFuel.
Proof. exact recursive_types_hang. Qed.
Print Assumptions C14_recursive_types_hang.

(** No command succeeds. *)
Theorem C14_recursive_types_no_success : forall names cmd fuel input fs b bm, config_command names cmd ->
  Forall (fun m => grammatical m = true) input -> build_from_config names input = Ok b ->
  In bm (b_modules b) -> cyclic (uses_local (bm_mod bm)) ->
  snd (run fuel cmd input fs) <> Ok tt.
Proof. exact run_recursive. Qed.
Print Assumptions C14_recursive_types_no_success.

Definition recursive_modules : list module :=
  [mkmodule "m" None [] None
     [DSequence "A" None [mkmember "x" (TName "B") None None];
      DSequence "B" None [mkmember "x" (TArray 2 (TName "A")) None None]]].

Theorem C14_recursive_types_rejected_refuted : exists names input,
  Forall (fun m => grammatical m = true) input
  /\ (exists m, In m input /\ cyclic (uses_local m))
  /\ forall cmd fuel fs, config_command names cmd -> run fuel cmd input fs = (fs, OutOfFuel).
Proof.
  exists ["m"], recursive_modules. split; [repeat constructor|].
  assert (C : cyclic (uses_local (nth 0 recursive_modules (mkmodule "" None [] None [])))).
  { exists "A". apply t_trans with (y := "B"); apply t_step.
    - do 2 eexists. split; [left; reflexivity|]. split; [reflexivity|]. split; [left; reflexivity|].
      split; [reflexivity|]. right. left. reflexivity.
    - do 2 eexists. split; [right; left; reflexivity|]. split; [reflexivity|]. split; [left; reflexivity|].
      split; [reflexivity|]. left. reflexivity. }
  split; [eexists; split; [left; reflexivity|exact C]|].
  intros cmd fuel fs Hc.
  destruct (build_from_config ["m"] recursive_modules) as [b| |] eqn:E; [|vm_compute in E; discriminate..].
  destruct (b_modules b) as [|bm [|]] eqn:Eb; [vm_compute in E; injection E as <-; discriminate| |
    vm_compute in E; injection E as <-; discriminate].
  eapply run_recursive_single; try eassumption; [repeat constructor|].
  vm_compute in E. injection E as <-. simpl in Eb. injection Eb as <-. exact C.
Qed.
Print Assumptions C14_recursive_types_rejected_refuted.
