(** * Property C07: sizes of messages *)
From Verif Require Import Base PyNum Ast Bundle Spec_Enum Spec_Grammar Spec_Num Spec_Check Spec_Bundle Spec_Size
  Spec_Layout Layout_proofs Samples.
Open Scope string_scope.
Open Scope Z_scope.

(** C07: without recursive types the size of a sequence is the sum of the sizes
    of its leaves; an error iff some leaf has no size. *)
Theorem C07_size : forall input bun n c l fuel,
  Forall (fun m => grammatical m = true) input -> accepted input bun ->
  nonrecursive (definitions input) -> In (DSequence n c l) (definitions input) ->
  (length (definitions input) <= fuel)%nat ->
  (exists ls, leaves (definitions input) l ls /\ sequence_size fuel (all_defs bun) l = Ok (total ls))
  \/ ((exists e, sequence_size fuel (all_defs bun) l = Err e) /\ forall ls, ~ leaves (definitions input) l ls).
Proof. exact sequence_size_decided. Qed.
Print Assumptions C07_size.

(** There is no size of a recursive type, however far the recursion goes. *)
Theorem C07_recursive : forall input bun,
  Forall (fun m => grammatical m = true) input -> accepted input bun ->
  forall n c l fuel w, In (DSequence n c l) (definitions input) -> recursive (definitions input) n ->
  sequence_size fuel (all_defs bun) l <> Ok w.
Proof. exact recursive_no_size. Qed.
Print Assumptions C07_recursive.

Definition nested_module : module :=
  mkmodule "m" None [] None
    [DSequence "Top" None [mkmember "a" (TName "Middle") None None; mkmember "b" TBoolean None None;
       mkmember "c" (TName "Mode") None None; mkmember "d" (TName "Middle") None None];
     DSequence "Middle" None [mkmember "x" (TName "Level") None None; mkmember "y" (TArray 3 (TName "Level")) None None];
     DSimple "Level" (TInteger (Some (0, 100))) None;
     DEnumerated "Mode" None [mkenum "off" None None; mkenum "on" None None; mkenum "auto" None None]].

Lemma nested_nonrecursive : nonrecursive (definitions [nested_module]).
Proof.
  apply (rank_nonrecursive (fun n => if String.eqb n "Top" then 1%nat else 0%nat)).
  intros a b (c & l & m & c' & l' & H1 & Hm & E & H2).
  cbn [definitions flat_map mod_defs nested_module app] in H1, H2. simpl in H2.
  destruct H1 as [H1|[H1|[H1|[H1|[]]]]]; try discriminate; injection H1 as <- <- <-;
    destruct H2 as [H2|[H2|[H2|[H2|[]]]]]; try discriminate; injection H2 as <- <- <-; try (vm_compute; constructor);
    repeat (destruct Hm as [<-|Hm]; [discriminate E|]); destruct Hm.
Qed.

Example C07_sample : exists bun,
  Forall (fun m => grammatical m = true) [nested_module] /\ accepted [nested_module] bun
  /\ nonrecursive (definitions [nested_module])
  /\ match mod_defs nested_module with
     | DSequence _ _ l :: _ => sequence_size 4 (all_defs bun) l = Ok (7 + 24 + 1 + 2 + (7 + 24))
     | _ => False
     end.
Proof.
  eexists. split; [repeat constructor; vm_compute; reflexivity|].
  split; [left; exists ["m"]; vm_compute; reflexivity|]. split; [exact nested_nonrecursive|]. vm_compute. reflexivity.
Qed.

(** A type that contains itself, through another one, is accepted. *)
Definition recursive_module : module :=
  mkmodule "m" None [] None
    [DSequence "Outer" None [mkmember "p" (TName "Ping") None None];
     DSequence "Ping" None [mkmember "q" (TName "Pong") None None; mkmember "b" TBoolean None None];
     DSequence "Pong" None [mkmember "p" (TName "Ping") None None]].

Example C07_recursive_sample : exists bun,
  Forall (fun m => grammatical m = true) [recursive_module] /\ accepted [recursive_module] bun
  /\ recursive (definitions [recursive_module]) "Outer".
Proof.
  eexists. split; [repeat constructor; vm_compute; reflexivity|].
  split; [left; exists ["m"]; vm_compute; reflexivity|].
  assert (S1 : nests (definitions [recursive_module]) "Ping" "Pong").
  { do 5 eexists. split; [right; left; reflexivity|]. split; [left; reflexivity|]. split; [reflexivity|]. do 2 right; left; reflexivity. }
  assert (S2 : nests (definitions [recursive_module]) "Pong" "Ping").
  { do 5 eexists. split; [do 2 right; left; reflexivity|]. split; [left; reflexivity|]. split; [reflexivity|]. right; left; reflexivity. }
  right. exists "Ping". split.
  - constructor. do 5 eexists. split; [left; reflexivity|]. split; [left; reflexivity|]. split; [reflexivity|]. right; left; reflexivity.
  - eapply reaches_trans; [exact S1|]. constructor. exact S2.
Qed.
