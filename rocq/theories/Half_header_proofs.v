(** * Proofs: the header of one module *)
From Coq Require Import Permutation Sorted.
From Verif Require Import Base PyNum PyStr Ast Size Processor Bundle Sorter CCommon GenCfs GenC GenBinary Main Lib_proofs
  Spec_Grammar Spec_Check Spec_Enum Spec_Size Spec_Layout Spec_Bundle Spec_Gen Spec_Files Spec_C Spec_Cfs Spec_Header Spec_Printed
  Enum_proofs Bundle_proofs Note_proofs Gen_proofs Field_proofs Cdata_proofs C_proofs Files_proofs Runs_proofs Str_proofs Text_proofs Disk_proofs Run_proofs Order_proofs Cfs_proofs Decl_proofs Packed_proofs Binary_proofs Accept_proofs Size_proofs Name_proofs Header_proofs Header2_proofs Header3_proofs Printed_proofs Half_source_proofs.
Open Scope string_scope.

(** As [header_printed_of], for one module of a run that may fail later. *)
Lemma one_header_printed : forall names cmd fuel input fs' m, config_command names cmd ->
  Forall (fun m => grammatical m = true) input -> written names cmd fuel input fs' m -> In m input ->
  exists b bm c order pieces std notes, config names input b /\ In bm (b_modules b) /\ same_module m (bm_mod bm) /\ generated fuel b bm c /\
    folder_get fs' (header_name cmd (mod_name m)) = Some (header_text cmd m order std notes (map snd pieces))
    /\ Permutation order (mod_defs m)
    /\ (forall i d k n, nth_error order i = Some d -> In k (members_of d) -> element (m_type k) = TName n ->
         (exists j d', (j < i)%nat /\ nth_error order j = Some d' /\ def_name d' = n)
         \/ exists it, In it (mod_imports m) /\ In n (imp_names it))
    /\ Forall2 (note_printed cmd input) order notes
    /\ Forall2 (fun d p => definition_printed (definitions input) d (fst p) (snd p)) order pieces
    /\ ((std = "#include <stdint.h>" ++ NL /\ exists x, In x (concat (map fst pieces)) /\ uses_stdint x)
        \/ (std = "" /\ ~ exists x, In x (concat (map fst pieces)) /\ uses_stdint x))
    /\ printed_of fuel bm c order std (map snd pieces).
Proof.
  intros names cmd fuel input fs' m HC Hg H Hm.
  destruct H as (b & bm & fl & C & Hbm & S & Hfl & R).
  assert (G : grammatical m = true) by (rewrite Forall_forall in Hg; apply Hg, Hm).
  assert (GN : is_name_lower (mod_name m) = true) by (unfold grammatical in G; repeat (apply andb_prop in G; destruct G as [G ?]); exact G).
  assert (Sn : bm_name bm = mod_name m) by apply S.
  assert (HC' := HC).
  destruct HC as [->|[->|(e & ->)]]; cbn [module_files] in Hfl; apply bind_ok in Hfl; destruct Hfl as (c & Hc & E).
  - destruct (rendered_text (GenerateCfs names) names input m (msg_filename (bm_name bm) ++ ".h") (fun n => msg_filename n ++ ".h") (cfs_note b)
      cfs_with_components fuel b bm c MSG HC' C Hbm (or_introl Hc) S) as (order & ps & std & ns & E' & X); try reflexivity; try assumption.
    + unfold msg_filename. rewrite ?Sn, <- ?string_app_assoc. unfold header_guard. apply guard_text; [exact GN|reflexivity].
    + exact cfs_wch_includes.
    + exact cfs_wch_data.
    + exact cfs_wch_bool.
    + intros n. unfold msg_filename. rewrite <- string_app_assoc. reflexivity.
    + exists b, bm, c, order, ps, std, ns. split; [exact C|]. split; [exact Hbm|]. split; [exact S|]. split; [left; exact Hc|]. split; [|exact X]. rewrite <- E'. apply R. injection E as <-. left. unfold msg_filename. rewrite Sn.
      cbn [header_name]. rewrite <- string_app_assoc. reflexivity.
  - destruct (rendered_text (GenerateC names) names input m (c_filename (bm_name bm) ++ ".h") c_filename c_note
      (c_with_components (bm_name bm)) fuel b bm c STORED_DATA HC' C Hbm (or_intror (or_introl Hc)) S) as (order & ps & std & ns & E' & X); try reflexivity; try assumption.
    + unfold c_filename. rewrite ?Sn. unfold header_guard. apply guard_text; [exact GN|reflexivity].
    + apply c_wch_includes.
    + apply c_wch_data.
    + apply c_wch_bool.
    + intros sorted Hso. unfold c_cdata in Hc. destruct (module_collects _ _ _ _ _ _ _ (c_wch_includes _) Hc) as (sorted' & css & _ & Hso' & Hh & _ & _ & Ep & _).
      rewrite Hso in Hso'. injection Hso' as <-.
      assert (EV : cd_predefs c = map (fun x => fst x ++ " " ++ snd x ++ ";") (clause_vars (GenerateC names) sorted)).
      { rewrite Ep. clear - Hh. cbn [clause_vars]. induction Hh as [|d cs l css H F IH]; [reflexivity|]. simpl.
        rewrite flat_map_app, map_app, map_app, IH. f_equal. clear - H. unfold handled in H.
        destruct d as [n c l| | |]; simpl in *; try (inversion H; reflexivity).
        revert cs H. induction l as [|k l IH]; intros cs H; simpl in *; [inversion H; reflexivity|].
        unfold has_clause at 1 in H. destruct (m_with k) as [w|] eqn:E; [|apply IH; exact H].
        inversion H as [|? x ? q Hx F]; subst. simpl. unfold c_with_components in Hx. rewrite E in Hx. injection Hx as <-.
        simpl. f_equal. apply IH. exact F. }
      cbn [is_stored_data]. rewrite EV.
      assert (VE : variables_said (GenerateC names) sorted = map (fun x => XVar (fst x) (snd x)) (clause_vars (GenerateC names) sorted)).
      { unfold clause_vars, variables_said. rewrite map_map. reflexivity. }
      rewrite VE. apply variables_are_text.
    + exists b, bm, c, order, ps, std, ns. split; [exact C|]. split; [exact Hbm|]. split; [exact S|]. split; [right; left; exact Hc|]. split; [|exact X]. rewrite <- E'. apply R. injection E as <-. left. unfold c_filename. rewrite Sn. reflexivity.
  - destruct (rendered_text (GenerateBinary names e) names input m (bin_filename (bm_name bm) ++ ".h") bin_filename bin_note
      (bin_with_components fuel e (all_defs b) (bm_mod bm)) fuel b bm c STORED_DATA_BINARY HC' C Hbm (or_intror (or_intror (ex_intro _ e Hc))) S) as (order & ps & std & ns & E' & X); try reflexivity; try assumption.
    + unfold bin_filename. rewrite ?Sn. unfold header_guard. apply guard_text; [exact GN|reflexivity].
    + apply bin_wch_includes.
    + apply bin_wch_data.
    + apply bin_wch_bool.
    + exists b, bm, c, order, ps, std, ns. split; [exact C|]. split; [exact Hbm|]. split; [exact S|]. split; [right; right; exists e; exact Hc|]. split; [|exact X]. rewrite <- E'. apply R. injection E as <-. left. unfold bin_filename. rewrite Sn. reflexivity.
Qed.


