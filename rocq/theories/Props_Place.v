(** * Property C98: the order of the definitions in the generated C files *)
From Coq Require Import Sorting.Permutation Sorting.Sorted Lia.
From Verif Require Import Base PyNum PyStr Ast CCommon GenC Main Spec_Grammar Spec_Check Spec_Bundle Spec_Gen Spec_Files Spec_C Spec_Header
  Spec_Printed Spec_Rename Spec_Place Place_proofs Order_files_proofs.
Open Scope string_scope.

(** C98.  The text of a header is the one of C95, with the definitions in
    rounds: each round goes once through the definitions of the module and
    writes those all of whose types have been written or are imported. *)
Theorem C98_headers : forall names cmd fuel input fs fs' m, config_command names cmd ->
  Forall (fun m => grammatical m = true) input -> run fuel cmd input fs = (fs', Ok tt) -> In m input ->
  exists order pieces std notes, in_rounds m order
    /\ folder_get fs' (header_name cmd (mod_name m)) = Some (header_text cmd m order std notes (map snd pieces))
    /\ Forall2 (note_printed cmd input) order notes
    /\ Forall2 (fun d p => definition_printed (definitions input) d (fst p) (snd p)) order pieces
    /\ ((std = "#include <stdint.h>" ++ NL /\ exists x, In x (concat (map fst pieces)) /\ uses_stdint x)
        \/ (std = "" /\ ~ exists x, In x (concat (map fst pieces)) /\ uses_stdint x)).
Proof. exact headers_in_rounds. Qed.
Print Assumptions C98_headers.

(** The .c file of command c is the one of C35, in the same order. *)
Theorem C98_sources : forall names fuel input fs fs' m,
  Forall (fun m => grammatical m = true) input -> run fuel (GenerateC names) input fs = (fs', Ok tt) -> In m input ->
  exists order include texts, in_rounds m order
    /\ Forall2 initialises (flat_map def_clauses order) texts
    /\ (ends_with_clause order -> include = "#include """ ++ c_name (mod_name m) ++ ".h""" ++ NL ++ NL)
    /\ (~ ends_with_clause order -> include = "")
    /\ folder_get fs' (c_name (mod_name m) ++ ".c") = Some (source_head m ++ include ++ String.concat "" texts).
Proof. exact sources_in_rounds. Qed.
Print Assumptions C98_sources.

(** There is only one such order. *)
Theorem C98_one_order : forall m order order', in_rounds m order -> in_rounds m order' -> order = order'.
Proof. exact one_order. Qed.
Print Assumptions C98_one_order.

(** Each definition comes after those it needs. *)
Theorem C98_needed_first : forall m order, in_rounds m order -> forall i d d', nth_error order i = Some d -> In d' (mod_defs m) ->
  needs m d (def_name d') -> exists j, (j < i)%nat /\ nth_error order j = Some d'.
Proof. exact rounds_dependencies. Qed.
Print Assumptions C98_needed_first.

(** It is the order of the module if the module has the definitions in a
    possible order. *)
Theorem C98_kept : forall m order, in_rounds m order ->
  (forall i d j d', nth_error (mod_defs m) i = Some d -> nth_error (mod_defs m) j = Some d' -> needs m d (def_name d') -> (j < i)%nat) ->
  order = mod_defs m.
Proof. exact order_kept. Qed.
Print Assumptions C98_kept.

(** Other names for the types (C96) do not change it. *)
Theorem C98_renamed : forall r s, renaming r s -> forall m order, in_rounds m order ->
  in_rounds (rename r m) (map (rename_definition r) order).
Proof. exact order_renamed. Qed.
Print Assumptions C98_renamed.

(** Three rounds. *)
Definition uses (n t : string) : definition := DSequence n None [mkmember "x" (TName t) None None].
Definition three_rounds : module :=
  mkmodule "m" None [mkimport ["F"] "n" None] None
    [uses "B" "A"; uses "A" "C"; uses "E" "C"; DSequence "C" None [mkmember "x" (TInteger (Some (0, 7)%Z)) None None]; uses "D" "F"].
Definition other_module : module :=
  mkmodule "n" None [] None [DSequence "F" None [mkmember "x" (TInteger (Some (0, 7)%Z)) None None]].

Lemma three_needs : forall d n, In d (mod_defs three_rounds) -> needs three_rounds d n <-> In (def_name d, n) [("B", "A"); ("A", "C"); ("E", "C")].
Proof.
  assert (I : forall n, imported three_rounds n <-> n = "F").
  { intros n. split; [intros (it & [<-|[]] & [<-|[]]); reflexivity|]. intros ->. eexists. split; [left; reflexivity|left; reflexivity]. }
  intros d n H. cbn [mod_defs three_rounds In] in H. unfold needs. split.
  - intros (k & Hk & E & N). rewrite I in N.
    repeat destruct H as [<-|H]; try destruct H; destruct Hk as [<-|[]]; cbn in E; try discriminate E; injection E as <-; cbn; intuition congruence.
  - intros X. cbn in X.
    repeat (destruct H as [<-|H]; [repeat (destruct X as [X|X]; [try discriminate X; injection X as <-;
      (eexists; split; [left; reflexivity|split; [reflexivity|rewrite I; discriminate]])|]); destruct X|]); destruct H.
Qed.

Example C98_sample : Forall (fun m => grammatical m = true) [three_rounds; other_module]
  /\ in_rounds three_rounds (map (fun i => nth i (mod_defs three_rounds) (uses "" "")) [3; 4; 1; 2; 0]%nat)
  /\ exists fs', run 9 (GenerateC ["m"; "n"]) [three_rounds; other_module] [] = (fs', Ok tt) /\ In three_rounds [three_rounds; other_module].
Proof.
  split; [repeat constructor; vm_compute; reflexivity|]. split; [|eexists; split; [vm_compute; reflexivity|left; reflexivity]].
  exists (fun i => nth i [2; 1; 1; 0; 0]%nat 0%nat), [3; 4; 1; 2; 0]%nat. split; [|split; [|split]].
  - intros i d Hi. assert (Hd := nth_error_In _ _ Hi). unfold ready. split.
    + intros j d' Hj N. apply (three_needs _ _ Hd) in N.
      do 5 (destruct i as [|i]; [injection Hi as <-; do 5 (destruct j as [|j]; [injection Hj as <-; cbn in N |- *; intuition (try discriminate; try lia)|]); destruct j; discriminate Hj|]);
      destruct i; discriminate Hi.
    + intros n R.
      assert (X : forall j d', nth_error (mod_defs three_rounds) j = Some d' -> In (def_name d, def_name d') [("B", "A"); ("A", "C"); ("E", "C")] ->
        (nth j [2; 1; 1; 0; 0]%nat 0%nat < n \/ nth j [2; 1; 1; 0; 0]%nat 0%nat = n /\ (j < i)%nat)%nat).
      { intros j d' Hj Y. apply (R j d' Hj). apply three_needs; [exact Hd|exact Y]. }
      destruct i as [|[|[|[|[|i]]]]]; [| | | | |destruct i; discriminate Hi]; injection Hi as <-; cbn [nth].
      * specialize (X 1%nat _ eq_refl). cbn in X. destruct X as [X|X]; [tauto|lia|lia].
      * specialize (X 3%nat _ eq_refl). cbn in X. destruct X as [X|X]; [tauto|lia|lia].
      * specialize (X 3%nat _ eq_refl). cbn in X. destruct X as [X|X]; [tauto|lia|lia].
      * lia.
      * lia.
  - cbn. apply NoDup_Permutation; [repeat constructor; cbn; lia|repeat constructor; cbn; lia|]. intros x. cbn. lia.
  - repeat constructor; cbn; lia.
  - reflexivity.
Qed.
