(** * Proofs: the order of the definitions in the files written *)
From Coq Require Import Sorting.Permutation.
From Verif Require Import Base PyNum PyStr Ast Size Processor Bundle Sorter CCommon GenC Main Spec_Grammar Spec_Check Spec_Bundle Spec_Gen Spec_Files Spec_C
  Spec_Header Spec_Printed Spec_Rename Spec_Place C_proofs Printed_proofs Place_proofs.
Open Scope string_scope.

Lemma headers_in_rounds : forall names cmd fuel input fs fs' m, config_command names cmd ->
  Forall (fun m => grammatical m = true) input -> run fuel cmd input fs = (fs', Ok tt) -> In m input ->
  exists order pieces std notes, in_rounds m order
    /\ folder_get fs' (header_name cmd (mod_name m)) = Some (header_text cmd m order std notes (map snd pieces))
    /\ Forall2 (note_printed cmd input) order notes
    /\ Forall2 (fun d p => definition_printed (definitions input) d (fst p) (snd p)) order pieces
    /\ ((std = "#include <stdint.h>" ++ NL /\ exists x, In x (concat (map fst pieces)) /\ uses_stdint x)
        \/ (std = "" /\ ~ exists x, In x (concat (map fst pieces)) /\ uses_stdint x)).
Proof.
  intros names cmd fuel input fs fs' m HC Hg H Hm.
  destruct (header_printed_of names cmd fuel input fs fs' m HC Hg H Hm)
    as (b & bm & c & order & ps & std & ns & C & Hbm & S & _ & E & P & U & N & D & St & ((sorted & Hs & F) & _)).
  exists order, ps, std, ns. split; [|auto]. exact (config_in_rounds names input b bm m fuel order sorted C Hbm S Hs P F).
Qed.

Lemma sources_in_rounds : forall names fuel input fs fs' m,
  Forall (fun m => grammatical m = true) input -> run fuel (GenerateC names) input fs = (fs', Ok tt) -> In m input ->
  exists order include texts, in_rounds m order
    /\ Forall2 initialises (flat_map def_clauses order) texts
    /\ (ends_with_clause order -> include = "#include """ ++ c_name (mod_name m) ++ ".h""" ++ NL ++ NL)
    /\ (~ ends_with_clause order -> include = "")
    /\ folder_get fs' (c_name (mod_name m) ++ ".c") = Some (source_head m ++ include ++ String.concat "" texts).
Proof.
  intros names fuel input fs fs' m Hg H Hm.
  destruct (source_written_of names fuel input fs fs' m Hg H Hm) as (b & bm & sorted & order & include & texts & C & Hbm & S & Hs & F & P & X).
  exists order, include, texts. split; [|exact X]. exact (config_in_rounds names input b bm m fuel order sorted C Hbm S Hs P F).
Qed.

(** ** Other names *)

Section Renamed.
Variables r s : string -> string.
Hypothesis RN : renaming r s.

Lemma element_renamed : forall t n, element (rename_type r t) = TName (r n) <-> element t = TName n.
Proof.
  induction t; intros n0; cbn; try (split; discriminate); [apply IHt|].
  split; intros H; [injection H as H; apply (f_equal s) in H; rewrite !(rn_back r s RN) in H; congruence|congruence].
Qed.
Lemma members_renamed : forall d, members_of (rename_definition r d) = map (rename_member r) (members_of d).
Proof. intros []; reflexivity. Qed.
Lemma name_renamed : forall d, def_name (rename_definition r d) = r (def_name d).
Proof. intros []; reflexivity. Qed.

Lemma imported_renamed : forall m n, imported (rename r m) (r n) <-> imported m n.
Proof.
  intros m n. split.
  - intros (it & Hi & Hn). cbn [rename mod_imports] in Hi. apply in_map_iff in Hi. destruct Hi as (it' & <- & Hi).
    cbn [rename_import imp_names] in Hn. apply in_map_iff in Hn. destruct Hn as (n' & E & Hn). apply (f_equal s) in E.
    rewrite !(rn_back r s RN) in E. subst n'. exists it'. split; assumption.
  - intros (it & Hi & Hn). exists (rename_import r it). split; [cbn [rename mod_imports]; apply in_map; exact Hi|].
    cbn [rename_import imp_names]. apply in_map. exact Hn.
Qed.

Lemma needs_renamed : forall m d n, needs (rename r m) (rename_definition r d) (r n) <-> needs m d n.
Proof.
  intros m d n. unfold needs. rewrite members_renamed. split.
  - intros (k & Hk & E & N). apply in_map_iff in Hk. destruct Hk as (k' & <- & Hk). exists k'. split; [exact Hk|].
    split; [apply element_renamed; exact E|]. intros X. apply N, imported_renamed, X.
  - intros (k & Hk & E & N). exists (rename_member r k). split; [apply in_map; exact Hk|].
    split; [cbn [rename_member m_type]; apply element_renamed; exact E|]. intros X. apply N, imported_renamed, X.
Qed.

Lemma order_renamed : forall m order, in_rounds m order -> in_rounds (rename r m) (map (rename_definition r) order).
Proof.
  intros m order (rounds & places & E & P & S & O).
  assert (NE : forall i d', nth_error (mod_defs (rename r m)) i = Some d' <-> exists d, nth_error (mod_defs m) i = Some d /\ d' = rename_definition r d).
  { intros i d'. cbn [rename mod_defs]. rewrite nth_error_map. destruct (nth_error (mod_defs m) i) as [d|]; cbn; split.
    - intros H. injection H as <-. eauto.
    - intros (x & Hx & ->). congruence.
    - discriminate.
    - intros (x & Hx & _). discriminate. }
  assert (R : forall i d n, ready (rename r m) rounds i (rename_definition r d) n <-> ready m rounds i d n).
  { intros i d n. split; intros X j d' Hj N.
    - apply (X j (rename_definition r d')); [apply NE; eauto|]. rewrite name_renamed. apply needs_renamed. exact N.
    - apply NE in Hj. destruct Hj as (x & Hj & ->). apply (X j x Hj). rewrite name_renamed in N. exact (proj1 (needs_renamed m d _) N). }
  exists rounds, places. split; [|split; [|split]].
  - intros i d' Hi. apply NE in Hi. destruct Hi as (d & Hi & ->). destruct (E i d Hi) as (E1 & E2).
    split; [apply R; exact E1|]. intros n X. apply E2. apply (R i d n). exact X.
  - cbn [rename mod_defs]. rewrite map_length. exact P.
  - exact S.
  - rewrite map_map. cbn [rename mod_defs]. transitivity (map (option_map (rename_definition r)) (map Some order)); [rewrite map_map; reflexivity|].
    rewrite O, map_map. apply map_ext. intros i. rewrite nth_error_map. reflexivity.
Qed.
End Renamed.
