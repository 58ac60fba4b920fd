(** * Proofs: the images of one module *)
From Coq Require Import QArith Qabs Permutation ZifyBool ZifyNat ZifyN Lia.
From Verif Require Import Base PyNum PyStr Ast Size Processor Bundle Sorter CCommon GenBinary Main Lib_proofs
  Spec_Enum Enum_proofs Spec_Grammar Spec_Num Num_proofs Spec_Check Check_proofs Spec_Bundle Bundle_proofs
  Reject_proofs Spec_Size Accept_proofs Size_proofs Field_proofs Spec_Layout Layout_proofs Spec_Ieee Ieee_proofs
  Spec_Binary Spec_Gen Gen_proofs Cdata_proofs Run_proofs Files_proofs Disk_proofs Cfs_proofs Order_proofs Binary_proofs Half_source_proofs.
Open Scope Z_scope.

(** As [binary_written], for one module of a run that may fail later. *)
Lemma one_binary_written : forall names fuel input fs' e m n c l k w,
  Forall (fun m => grammatical m = true) input -> written names (GenerateBinary names (Some e)) fuel input fs' m -> In m input ->
  In (DSequence n c l) (mod_defs m) -> last_clause l k w ->
  exists s b, folder_get fs' (lowerize (c_name n) ++ ".bin") = Some s /\ byte_string s b
    /\ clause_image (definitions input) (mod_defs m) e (m_type k) w b.
Proof.
  intros names fuel input fs' e m n c l k w Hg H Hm Hd Hk.
  destruct H as (b & bm & fl & C & Hbm & S1 & Hfl & R).
  cbn [module_files] in Hfl. apply bind_ok in Hfl. destruct Hfl as (cd & Hc & E). injection E as <-.
  unfold bin_cdata in Hc. apply module_collects in Hc; [|apply bin_wch_includes].
  destruct Hc as (sorted & css & iss & Hs & F & _ & _ & _ & _ & _ & _ & B).
  assert (P := sorted_perm _ _ _ Hs).
  assert (Nd : NoDup (map def_name sorted)).
  { apply (Permutation_NoDup (Permutation_sym (Permutation_map def_name P))). eapply config_local_nodup; eassumption. }
  assert (Cap : forall d, In d sorted -> is_name_capital (def_name d) = true).
  { intros d Hd'. eapply config_capital; [exact C|]. apply in_all_defs. exists bm. split; [exact Hbm|].
    apply (Permutation_in _ P). exact Hd'. }
  assert (Nl : NoDup (map (fun d => lowerize (c_name (def_name d))) sorted)).
  { clear - Nd Cap. induction sorted as [|d l IH]; simpl; [constructor|]. simpl in Nd. inversion Nd as [|? ? N1 N2]; subst.
    constructor; [|apply IH; [exact N2|intros x Hx; apply Cap; right; exact Hx]].
    intros G. apply in_map_iff in G. destruct G as (x & E & Hx). apply N1.
    apply lower_c_name_inj in E; [|apply Cap; right; exact Hx|apply Cap; left; reflexivity].
    rewrite <- E. apply in_map. exact Hx. }
  destruct (bin_cdata_binary _ _ _ _ _ _ _ F Nl B) as (B' & _).
  assert (Hd' : In (DSequence n c l) sorted).
  { apply (Permutation_in _ (Permutation_sym P)). apply (same_module_sequence _ _ S1). exact Hd. }
  destruct (Forall2_in_l _ _ _ _ _ _ F Hd') as (cs & Hcs & Hh).
  destruct (bin_clause_binary _ _ _ _ _ _ Hh) as (E & _). unfold handled in Hh. cbn [clauses_of def_name] in Hh.
  destruct (filter_last _ _ _ Hk) as (r & Er). rewrite Er in Hh. apply Forall2_app_inv_l in Hh. destruct Hh as (cs1 & cs2 & _ & F2 & ->).
  inversion F2 as [|? ck ? ? Hck F3]; subst. inversion F3; subst. rewrite map_app in E. cbn [map] in E. rewrite last_last in E.
  assert (Ha := config_accepted _ _ _ C).
  assert (Hw : m_with k = Some w) by (destruct Hk as (? & ? & _ & Q & _); exact Q).
  assert (Hkl : In k l) by (destruct Hk as (? & ? & -> & _); apply in_or_app; right; left; reflexivity).
  assert (Hdi : In (DSequence n c l) (definitions input)) by (apply in_flat_map; exists m; split; assumption).
  unfold bin_with_components in Hck. rewrite Hw in Hck. apply bind_ok in Hck. destruct Hck as (specs & Hsp & Hck).
  apply bind_ok in Hck. destruct Hck as (bs & Hbs & Hck). injection Hck as <-. cbn [cd_binary] in E.
  assert (Hvd := accepted_modules_valid _ _ Hg Ha). destruct (definitions_types input _ k Hg Hvd Hdi Hkl) as (Ht & _).
  assert (Hwok : wcomps_ok w = true).
  { rewrite Forall_forall in Hg. assert (Q := grammatical_defs m (Hg m Hm)). rewrite Forall_forall in Q. specialize (Q _ Hd). cbn in Q. apply andb_prop in Q. destruct Q as (_ & Q).
    rewrite forallb_forall in Q. specialize (Q _ Hkl). unfold member_ok in Q. rewrite Hw in Q. apply andb_prop in Q. apply Q. }
  assert (I : clause_image (definitions input) (mod_defs m) e (m_type k) w (concat bs)).
  { eapply (clause_sound input b Hg Ha (mod_defs (bm_mod bm)) (mod_defs m)); try eassumption.
    - intros n0 c0 l0 H0. apply (same_module_sequence _ _ S1) in H0. apply in_flat_map. exists m. auto.
    - intros n0 c0 l0 H0. apply (same_module_sequence _ _ S1) in H0. exact H0. }
  exists (string_of_bytes (concat bs)), (concat bs). split; [|split; [|exact I]].
  - apply R. unfold print_to_file. cbn [is_binary is_stored_data]. apply in_or_app. right. apply in_or_app. right.
    apply in_map_iff. exists (lowerize (c_name n), bs). split; [reflexivity|]. rewrite B'. apply in_flat_map.
    exists (cs1 ++ [mkcdata [] [] [] [] [] "" false false "" [(lowerize (c_name n), bs)]])%list. split; [exact Hcs|]. rewrite E. left. reflexivity.
  - apply string_of_bytes_spec. eapply clause_image_bytes. exact I.
Qed.
