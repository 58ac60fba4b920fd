(** * Property C105: the order in which modules are processed, and which runs hang *)
From Coq Require Import Permutation Relations.
From Verif Require Import Base PyNum PyStr Ast Bundle Sorter CCommon GenBinary Main Spec_Num Spec_Grammar Spec_Check Spec_Bundle Spec_Gen Spec_Order
  Spec_Files Spec_Runs Spec_Failures Spec_Hang Bundle_proofs Hang_proofs Props_Order.
Open Scope string_scope.
Open Scope list_scope.

(** C105.  Modules are processed in the order of Spec_Hang, the only one of its
    kind. *)
Theorem C105_order : forall names input b fuel l, build_from_config names input = Ok b ->
  get_modules_ordered fuel b = Ok l ->
  exists order, taken_in_order input order /\ Forall2 same_module order (map bm_mod l)
    /\ Permutation input order /\ forall order', taken_in_order input order' -> order' = order.
Proof. exact order_modelled. Qed.
Print Assumptions C105_order.

(** There is one exactly if no module imports from itself over any number of
    modules. *)
Theorem C105_order_exists : forall names input, Forall (fun m => grammatical m = true) input -> bundle_valid names input ->
  ((exists order, taken_in_order input order) <-> acyclic (imports_from input)).
Proof. exact order_exists. Qed.
Print Assumptions C105_order_exists.

(** Then a run of c or cfs goes in this order up to the first module with
    recursive types, where it hangs, or that does not fit the command, where it
    ends with an error.  The files of the modules before are written, whatever
    was there, and no others. *)
Theorem C105_course : forall names input cmd, Forall (fun m => grammatical m = true) input -> c_or_cfs names cmd ->
  forall fuel, bundle_valid names input -> acyclic (imports_from input) ->
  (S (length input + length (definitions input)) <= fuel)%nat ->
  exists done left, taken_in_order input (done ++ left) /\ Forall (proceeds cmd input) done
    /\ ((left = [] /\ forall fs, snd (run fuel cmd input fs) = Ok tt)
        \/ (exists m r e, left = m :: r /\ acyclic (uses_local m) /\ ~ module_fits cmd input m /\ forall fs, snd (run fuel cmd input fs) = Err e)
        \/ (exists m r, left = m :: r /\ cyclic (uses_local m) /\ forall fs, snd (run fuel cmd input fs) = OutOfFuel))
    /\ (forall f, (exists m, In m done /\ file_of cmd m f) ->
         exists text, forall fs, folder_get (fst (run fuel cmd input fs)) f = Some text)
    /\ (forall f, ~ (exists m, In m done /\ file_of cmd m f) ->
         forall fs, folder_get (fst (run fuel cmd input fs)) f = folder_get fs f).
Proof. exact run_course. Qed.
Print Assumptions C105_course.

(** So a run of c or cfs hangs exactly if the modules are valid and either
    their imports are cyclic or the run comes to a module with recursive
    types, *)
Theorem C105_hangs : forall names input cmd, Forall (fun m => grammatical m = true) input -> c_or_cfs names cmd ->
  ((forall fuel fs, snd (run fuel cmd input fs) = OutOfFuel) <->
   bundle_valid names input /\ (cyclic (imports_from input) \/ exists done m, comes_to cmd input done m /\ cyclic (uses_local m))).
Proof. exact hangs_iff. Qed.
Print Assumptions C105_hangs.

(** and one that has not ended after as many rounds as there are modules and
    definitions never ends. *)
Theorem C105_soon : forall names input cmd, Forall (fun m => grammatical m = true) input -> c_or_cfs names cmd ->
  forall fs, snd (run (S (length input + length (definitions input))) cmd input fs) = OutOfFuel ->
  forall fuel fs, snd (run fuel cmd input fs) = OutOfFuel.
Proof. exact hangs_soon. Qed.
Print Assumptions C105_soon.

(** The module d is passed unseen behind a, so that e comes before it. *)
Definition named (n : string) (imports : list import_item) (ds : list definition) : module := mkmodule n None imports None ds.
Definition knot : list module :=
  [named "b" [] [DSequence "B" None [mkmember "x" (TName "B2") None None]; DSequence "B2" None [mkmember "y" (TName "B") None None]];
   named "a" [mkimport ["B"] "b" None] [DSequence "A" None [mkmember "x" TBoolean None None; mkmember "b" (TName "B") None None]];
   named "d" [] [DSequence "D" None [mkmember "x" TBoolean None None]];
   named "e" [] [DSequence "E" None [mkmember "x" TBoolean None None]]].

Example C105_sample : let input := knot in let names := ["b"; "a"; "d"; "e"] in
  Forall (fun m => grammatical m = true) input /\ bundle_valid names input /\ acyclic (imports_from input)
  /\ (exists order, taken_in_order input order /\ map mod_name order = ["a"; "e"; "b"; "d"])
  /\ (exists done m, comes_to (GenerateC names) input done m /\ cyclic (uses_local m))
  /\ map fst (fst (run 11 (GenerateC names) input [])) = ["a.h"; "a.c"; "e.h"; "e.c"].
Proof.
  intros input names.
  assert (G : Forall (fun m => grammatical m = true) input) by (repeat constructor).
  assert (V : bundle_valid names input) by (apply (bundle_accepted_iff _ _ G); eexists; vm_compute; reflexivity).
  split; [exact G|]. split; [exact V|].
  assert (A : acyclic (imports_from input)).
  { apply (rank_acyclic _ (fun n => if String.eqb n "a" then 1 else 0)%nat). intros x y (m & it & Hm & <- & Hit & <-).
    repeat (destruct Hm as [<-|Hm]; [cbn in Hit; repeat (destruct Hit as [<-|Hit]; [vm_compute; repeat constructor|]); destruct Hit|]). destruct Hm. }
  split; [exact A|]. split; [|split].
  - destruct (proj2 (bundle_accepted_iff _ _ G) V) as (b & Hb). vm_compute in Hb. 
    assert (Hb' : build_from_config names input = Ok b) by (vm_compute; exact Hb).
    destruct (get_modules_ordered 9 b) as [l|e|] eqn:E; [|injection Hb as <-; vm_compute in E; discriminate..].
    destruct (order_modelled names input b 9 l Hb' E) as (order & T & F & _). exists order. split; [exact T|].
    assert (N : map mod_name order = map bm_name l).
    { clear - F. revert order F. induction l as [|x l IH]; intros order F; inversion F as [|m ? r ? S F']; subst; [reflexivity|].
      cbn [map]. f_equal; [destruct S as (S & _); symmetry; exact S|apply IH; exact F']. }
    rewrite N. injection Hb as <-. vm_compute in E. injection E as <-. reflexivity.
  - assert (H : snd (run 11 (GenerateC names) input []) = OutOfFuel) by (vm_compute; reflexivity).
    destruct (run_hangs_at names input (GenerateC names) G (or_introl eq_refl) 11 []) as (_ & [Cy|X]); [repeat constructor|exact H|contradiction|exact X].
  - vm_compute. reflexivity.
Qed.
