(** * Property C72: what a run that fails leaves in the output folder *)
From Coq Require Import Permutation.
From Verif Require Import Base PyNum PyStr Ast Bundle CCommon GenBinary Main Spec_Num Spec_Grammar Spec_Check Spec_Bundle Spec_Gen Spec_Order
  Spec_Files Spec_Runs Spec_Failures Bundle_proofs Failures_proofs Props_Runs.
Open Scope string_scope.
Open Scope list_scope.

(** C72.  Full statement: a run that fails leaves the output folder as it was.
    It holds of cosmos: *)
Theorem C72_cosmos_untouched_partial : forall fuel m msgs t input fs fs' r,
  run fuel (GenerateCosmos m msgs t) input fs = (fs', r) -> r <> Ok tt -> fs' = fs.
Proof. exact cosmos_untouched. Qed.
Print Assumptions C72_cosmos_untouched_partial.

(** Of cfs, c and binary only less holds.  For valid input without cyclic
    imports or types the run ends, and it ends with an error at the first module
    in its order that does not fit the command (Spec_Failures).  The modules
    before that one all fit, and include every module that imports from one of
    them or from the one that does not fit.  The files of these modules are
    written, whatever was there before, and no other file changes. *)
Theorem C72_files_left_partial : forall names cmd input fuel, config_command names cmd ->
  Forall (fun m => grammatical m = true) input -> well_founded_input names input ->
  (S (length input + length (definitions input)) <= fuel)%nat ->
  exists done left, Permutation input (done ++ left)
    /\ Forall (module_fits cmd input) done
    /\ (forall a b, In a input -> In b done -> imports_module a b -> In a done)
    /\ ((left = [] /\ forall fs, snd (run fuel cmd input fs) = Ok tt)
        \/ exists m r e, left = m :: r /\ ~ module_fits cmd input m
             /\ (forall a, In a input -> imports_module a m -> In a done)
             /\ forall fs, snd (run fuel cmd input fs) = Err e)
    /\ (forall f, (exists m, In m done /\ file_of cmd m f) ->
         exists text, forall fs, folder_get (fst (run fuel cmd input fs)) f = Some text)
    /\ (forall f, ~ (exists m, In m done /\ file_of cmd m f) ->
         forall fs, folder_get (fst (run fuel cmd input fs)) f = folder_get fs f).
Proof. exact run_leaves. Qed.
Print Assumptions C72_files_left_partial.

(** Input whose second module does not fit. *)
Definition late_modules : list module :=
  [mkmodule "b" None [] None
     [DSequence "T" None [mkmember "values" (TArray 4 (TInteger (Some (0, 7)%Z))) None None]];
   mkmodule "a" None [mkimport ["T"] "b" None] None
     [DSequence "S" None [mkmember "t" (TName "T") None None; mkmember "on" TBoolean None None]]].

Example C72_sample : Forall (fun m => grammatical m = true) late_modules /\ well_founded_input ["b"; "a"] late_modules
  /\ ~ module_fits (GenerateC ["b"; "a"]) late_modules (nth 0 late_modules numbers_module)
  /\ module_fits (GenerateC ["b"; "a"]) late_modules (nth 1 late_modules numbers_module)
  /\ map fst (fst (run 5 (GenerateC ["b"; "a"]) late_modules [])) = ["a.h"; "a.c"].
Proof.
  assert (G : Forall (fun m => grammatical m = true) late_modules) by (repeat constructor).
  split; [exact G|]. split; [|split; [|split]].
  - constructor.
    + apply (bundle_accepted_iff _ _ G). eexists. vm_compute. reflexivity.
    + assert (L : forall x y, Relation_Operators.clos_trans string (imports_from late_modules) x y -> x = "a" /\ y = "b").
      { assert (L1 : forall x y, imports_from late_modules x y -> x = "a" /\ y = "b").
        { intros x y (m & it & [<-|[<-|[]]] & E & Hi & Ey); cbn in *; [destruct Hi|]. destruct Hi as [<-|[]]. auto. }
        intros x y H. induction H as [x y H|x y z _ (-> & ->) _ (Q & _)]; [exact (L1 _ _ H)|discriminate Q]. }
      intros (x & H). destruct (L _ _ H) as (-> & Q). discriminate Q.
    + intros m Hm (x & H). assert (L : forall x y, ~ uses_local m x y).
      { intros u v (d & k & Hd & _ & Hk & Ek & Hn). destruct Hm as [<-|[<-|[]]]; cbn in Hd; destruct Hd as [<-|[]]; cbn in Hk.
        - destruct Hk as [<-|[]]. discriminate.
        - destruct Hk as [<-|[<-|[]]]; [|discriminate]. injection Ek as <-. destruct Hn as [Q|[]]; discriminate Q. }
      induction H as [x y H|x y z _ H _ _]; [exact (L _ _ H)|exact H].
  - intros (M & _). specialize (M "T" None _ _ (or_introl eq_refl) (or_introl eq_refl)).
    inversion M as [E|k n E|[(r & E)|(r & E)] D|n t' c E|n d E]; discriminate.
  - split; [|exact I]. intros n c l k [E|[]] Hk. injection E as <- <- <-. destruct Hk as [<-|[<-|[]]].
    + eapply (has_other _ _ "T"); [reflexivity|left; reflexivity|reflexivity|reflexivity].
    + apply has_boolean. reflexivity.
  - vm_compute. reflexivity.
Qed.

(** So the full statement is false of each of the three commands: the new files
    of one module end up next to old files of another. *)
Theorem C72_untouched_refuted : Forall (fun cmd => exists input e fs, config_command ["b"; "a"] cmd
    /\ Forall (fun m => grammatical m = true) input /\ bundle_valid ["b"; "a"] input
    /\ snd (run 5 cmd input fs) = Err e /\ ~ same_files (fst (run 5 cmd input fs)) fs)
  [GenerateCfs ["b"; "a"]; GenerateC ["b"; "a"]; GenerateBinary ["b"; "a"] (Some BigEndian)].
Proof.
  destruct C72_sample as (G & [V _ _] & _).
  repeat constructor.
  - exists late_modules. eexists. exists [("a_msg.h", "old"); ("b_msg.h", "old")]. split; [left; reflexivity|]. split; [exact G|]. split; [exact V|].
    split; [vm_compute; reflexivity|]. intros S. specialize (S "a_msg.h"). vm_compute in S. discriminate.
  - exists late_modules. eexists. exists [("a.h", "old"); ("b.h", "old")]. split; [right; left; reflexivity|]. split; [exact G|]. split; [exact V|].
    split; [vm_compute; reflexivity|]. intros S. specialize (S "a.h"). vm_compute in S. discriminate.
  - exists late_modules. eexists. exists [("a.h", "old"); ("b.h", "old")]. split; [right; right; eexists; reflexivity|]. split; [exact G|]. split; [exact V|].
    split; [vm_compute; reflexivity|]. intros S. specialize (S "a.h"). vm_compute in S. discriminate.
Qed.
Print Assumptions C72_untouched_refuted.
