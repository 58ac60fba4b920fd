(** * Proofs: the header with message IDs of one module *)
From Coq Require Import Sorting.Permutation Sorting.Sorted Lia.
From Verif Require Import Base PyNum PyStr Ast Size Processor Bundle Sorter CCommon GenC GenCfs Main Spec_Grammar Spec_Check Spec_Bundle Spec_Gen Spec_Files
  Spec_Text Spec_C Spec_Cfs Spec_Size Spec_Layout Spec_Header Spec_Printed Spec_Rename Spec_Place Spec_Failures Spec_Letters
  Lib_proofs Str_proofs Enum_proofs Text_proofs Field_proofs Gen_proofs Cdata_proofs Run_proofs Bundle_proofs Disk_proofs Cfs_proofs C_proofs Header2_proofs Header3_proofs Valid_proofs
  Printed_proofs Place_proofs Order_files_proofs Inputs_proofs Failures_proofs Files_proofs Letters_proofs Half_source_proofs.
Open Scope string_scope.

(** As [msgids_in_rounds], for one module of a run that may fail later. *)
Lemma one_msgids : forall names fuel input fs' m,
  Forall (fun m => grammatical m = true) input -> written names (GenerateCfs names) fuel input fs' m -> In m input ->
  exists text, folder_get fs' (c_name (mod_name m) ++ "_msgids.h") = Some text /\ is_ids_header m text.
Proof.
  intros names fuel input fs' m Hg H Hm.
  destruct H as (b & bm & fl & C & Hbm & S & Hfl & R).
  cbn [module_files] in Hfl. apply bind_ok in Hfl. destruct Hfl as (c & Hc & E). injection E as <-.
  assert (X : exists sorted, sorted_definitions fuel (bm_mod bm) = Ok sorted
    /\ Forall2 (fun ne d => defines (fst ne) (snd ne) d) (flat_map def_entries sorted) (cd_defines c)).
  { unfold cfs_cdata in Hc. apply module_collects in Hc; [|apply cfs_wch_includes].
    destruct Hc as (sorted & css & iss & Hs & F & -> & _). exists sorted. split; [exact Hs|].
    clear Hs. induction F as [|d cs sorted css H0 F IH]; [constructor|]. cbn [flat_map concat].
    rewrite flat_map_app. apply Forall2_app; [|exact IH]. eapply clauses_entries; [|exact H0|reflexivity]. auto. }
  destruct X as (sorted & Hs & F). assert (P := sorted_perm _ _ _ Hs). destruct (order_of_input _ _ _ S P) as (order & P' & F').
  assert (Sn : bm_name bm = mod_name m) by apply S.
  assert (Gm : grammatical m = true) by (rewrite Forall_forall in Hg; apply Hg, Hm).
  assert (GN : is_name_lower (mod_name m) = true) by (unfold grammatical in Gm; repeat (apply andb_prop in Gm; destruct Gm as [Gm ?]); exact Gm).
  eexists. split.
  - apply R. right. left. unfold msgids_filename. rewrite Sn, <- string_app_assoc. reflexivity.
  - exists order, (cd_defines c). eexists. split; [eapply config_in_rounds; eassumption|]. split; [|split; [reflexivity|]].
    + assert (E : flat_map def_entries sorted = flat_map def_entries order).
      { clear - F'. induction F' as [|d d' l l' H F IH]; [reflexivity|]. simpl. rewrite IH, (same_entries _ _ H). reflexivity. }
      rewrite <- E. exact F.
    + assert (G := guard_text (mod_name m) "_msgids.h" "_MSGIDS_H" GN eq_refl).
      change ("_MSGIDS_H" ++ "_INCLUDED")%string with "_MSGIDS_H_INCLUDED" in G. rewrite <- G.
      unfold render_header, guard_open, guard_close, file_header, msgids_filename. cbn [is_msgids is_stored_data].
      rewrite <- ?string_app_assoc. cbn [String.eqb].
      assert (L : concat_map_str (fun d => render_define d ++ NL)%string (cd_defines c) = String.concat "" (map define_line (cd_defines c))).
      { change (String.concat "" (map define_line (cd_defines c))) with (concat_map_str define_line (cd_defines c)).
        clear. induction (cd_defines c) as [|d ds IH]; [reflexivity|]. rewrite !concat_map_str_cons, IH. f_equal.
        unfold render_define, define_line. rewrite <- ?string_app_assoc.
        destruct (df_newline d); cbn [append]; rewrite ?string_app_nil; reflexivity. }
      destruct (cd_defines c) as [|d ds]; [reflexivity|]. cbn [is_nil]. rewrite L, <- ?string_app_assoc. reflexivity.
Qed.


