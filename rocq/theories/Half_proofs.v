(** * Proofs: what a run leaves, also if it fails *)
From Coq Require Import Sorting.Permutation.
From Verif Require Import Base PyNum PyStr Ast Size Processor Bundle Sorter CCommon GenC GenCfs GenBinary Main Spec_Grammar Spec_Check Spec_Bundle Spec_Gen Spec_Files
  Spec_Text Spec_C Spec_Cfs Spec_Size Spec_Layout Spec_Header Spec_Printed Spec_Place Spec_Binary Spec_Failures Spec_Hang Spec_Letters
  Lib_proofs Str_proofs Field_proofs Gen_proofs Run_proofs Order_proofs Bundle_proofs Files_proofs Disk_proofs C_proofs Binary_proofs
  Printed_proofs Place_proofs Inputs_proofs Failures_proofs Hang_proofs Letters_proofs Exact_proofs
  Half_source_proofs Half_image_proofs Half_header_proofs Half_ids_proofs.
Open Scope string_scope.
Open Scope list_scope.

Lemma text_file_of : forall cmd input m f text, file_text cmd input m f text -> file_of cmd m f.
Proof.
  intros [mn msgs t|names|names|names oe] input m f text; cbn [file_text file_of]; [tauto|tauto|tauto|].
  intros [(E & _)|(e & n & _ & E & c & l & k & w & b & D & (x & y & -> & Q & _) & _)]; [left; exact E|right].
  eexists n, c, _, k. split; [exact D|]. split; [apply in_or_app; right; left; reflexivity|]. split; [congruence|exact E].
Qed.

Section One.
Variables (names : list string) (cmd : command) (fuel : nat) (input : list module) (fs' : folder) (m : module).
Hypothesis Hc : config_command names cmd.
Hypothesis Hg : Forall (fun m => grammatical m = true) input.
Hypothesis W : written names cmd fuel input fs' m.
Hypothesis Hm : In m input.

Lemma one_defined_once : NoDup (map def_name (definitions input)).
Proof.
  destruct W as (b & _ & _ & (C1 & C2) & _). assert (V : bundle_valid names input) by (apply bundle_accepted_iff; eauto).
  exact (bv_names _ _ V).
Qed.

Lemma one_header : forall text, folder_get fs' (header_name cmd (mod_name m)) = Some text <-> is_header cmd input m text.
Proof.
  destruct (one_header_printed names cmd fuel input fs' m Hc Hg W Hm)
    as (b & bm & c & order & ps & std & ns & C & Hbm & S & _ & E & P & U & N & D & St & ((sorted & Hs & F) & _)).
  assert (I : is_header cmd input m (header_text cmd m order std ns (map snd ps))).
  { exists order, ps, std, ns. split; [exact (config_in_rounds names input b bm m fuel order sorted C Hbm S Hs P F)|]. auto. }
  intros text. rewrite E. split; [intros Q; injection Q as <-; exact I|]. intros I'. f_equal. eapply header_unique; [apply one_defined_once|eassumption..].
Qed.

Lemma one_file : forall f text, file_of cmd m f -> (folder_get fs' f = Some text <-> file_text cmd input m f text).
Proof.
  intros f text F. assert (H := one_header text). assert (ND := one_defined_once). destruct Hc as [->|[->|(oe & ->)]]; cbn [file_of file_text header_name] in *.
  - destruct F as [-> | ->].
    + rewrite H. split; [auto|]. intros [(_ & T)|(E & _)]; [exact T|]. apply string_app_inv_l in E. discriminate E.
    + destruct (one_msgids names fuel input fs' m Hg W Hm) as (t & E & I). rewrite E. split; [intros Q; injection Q as <-; auto|].
      intros [(X & _)|(_ & T)]; [apply string_app_inv_l in X; discriminate X|]. f_equal. eapply msgids_unique; eassumption.
  - destruct F as [-> | ->].
    + rewrite H. split; [auto|]. intros [(_ & T)|(E & _)]; [exact T|]. apply string_app_inv_l in E. discriminate E.
    + destruct (one_source_written names fuel input fs' m Hg W Hm) as (b & bm & sorted & order & inc & ts & C & Hbm & S & Hs & F & P & I1 & I2 & I3 & E).
      assert (I : is_source m (source_head m ++ inc ++ String.concat "" ts)).
      { exists order, inc, ts. split; [exact (config_in_rounds names input b bm m fuel order sorted C Hbm S Hs P F)|]. split; [exact I1|]. split; [|reflexivity].
        destruct (ends_dec order) as [X|X]; auto. }
      rewrite E. split; [intros Q; injection Q as <-; auto|].
      intros [(X & _)|(_ & T)]; [apply string_app_inv_l in X; discriminate X|]. f_equal. eapply source_unique; eassumption.
  - assert (K : forall e n text', oe = Some e -> is_image input m e n text' -> folder_get fs' (lowerize (c_name n) ++ ".bin") = Some text').
    { intros e n t -> (c & l & k & w & bs & D & L & B & I).
      destruct (one_binary_written names fuel input fs' e m n c l k w Hg W Hm D L) as (s & b2 & E & B2 & I2). rewrite E. f_equal.
      rewrite (clause_image_unique _ _ _ ND (local_names _ _ ND Hm) _ _ _ _ I2 I) in B2. eapply byte_string_unique; eassumption. }
    split.
    + intros E. destruct F as [->|(n & c & l & k & D & Hk & Hw & ->)]; [left; split; [reflexivity|apply H; exact E]|right].
      assert (Q : exists e, oe = Some e).
      { assert (W' := W). destruct W' as (b & bm & fl & C & Hbm & S1 & Hfl & R).
        assert (F := one_needs names input _ Hg Hc b (proj2 C) bm m Hbm Hm S1 fuel fl Hfl). destruct F as (_ & F).
        destruct (m_with k) as [w|] eqn:X; [|congruence]. destruct (F n c l k w D Hk X) as (_ & e & _ & Q & _). eauto. }
      destruct Q as (e & Qe). exists e, n. split; [exact Qe|]. split; [reflexivity|].
      destruct (has_last_clause _ _ Hk Hw) as (k' & w & L). revert W. rewrite Qe. intros W'.
      destruct (one_binary_written names fuel input fs' e m n c l k' w Hg W' Hm D L) as (s & b2 & E2 & B2 & I2).
      rewrite E in E2. injection E2 as <-. exists c, l, k', w, b2. auto.
    + intros [(-> & T)|(e & n & Q & -> & T)]; [apply H; exact T|]. eapply K; eassumption.
Qed.
End One.

Theorem left_files : forall names cmd fuel input fs fs' r, config_command names cmd -> Forall (fun m => grammatical m = true) input ->
  run fuel cmd input fs = (fs', r) ->
  exists done left, Permutation input (done ++ left) /\ (done <> [] -> taken_in_order input (done ++ left)) /\ (r = Ok tt -> left = [])
    /\ Forall (module_fits cmd input) done
    /\ (well_founded_input names input -> (S (length input + length (definitions input)) <= fuel)%nat ->
         taken_in_order input (done ++ left) /\ (left = [] \/ exists m rest, left = m :: rest /\ ~ module_fits cmd input m))
    /\ (forall m f, In m done -> file_of cmd m f -> exists text, file_text cmd input m f text)
    /\ forall f text, folder_get fs' f = Some text <->
      (exists m, In m done /\ file_text cmd input m f text)
      \/ ((forall m, In m done -> ~ file_of cmd m f) /\ folder_get fs f = Some text).
Proof.
  intros names cmd fuel input fs fs' r Hc Hg R.
  assert (None_ : r <> Ok tt -> fs' = fs -> (well_founded_input names input -> (S (length input + length (definitions input)) <= fuel)%nat -> False) -> exists done left, Permutation input (done ++ left) /\ (done <> [] -> taken_in_order input (done ++ left)) /\ (r = Ok tt -> left = [])
    /\ Forall (module_fits cmd input) done
    /\ (well_founded_input names input -> (S (length input + length (definitions input)) <= fuel)%nat ->
         taken_in_order input (done ++ left) /\ (left = [] \/ exists m rest, left = m :: rest /\ ~ module_fits cmd input m))
    /\ (forall m f, In m done -> file_of cmd m f -> exists text, file_text cmd input m f text)
    /\ forall f text, folder_get fs' f = Some text <->
      (exists m, In m done /\ file_text cmd input m f text)
      \/ ((forall m, In m done -> ~ file_of cmd m f) /\ folder_get fs f = Some text)).
  { intros Y -> Z. exists [], input. split; [apply Permutation_refl|]. split; [congruence|]. split; [congruence|]. split; [constructor|].
    split; [intros WF L; destruct (Z WF L)|]. split; [intros m f []|].
    intros f text. split; [intros E; right; split; [intros m []|exact E]|]. intros [(m & [] & _)|(_ & E)]; exact E. }
  rewrite (run_config names) in R by exact Hc.
  destruct (build_from_config names input) as [b|x|] eqn:B;
    [|injection R as <- <-; apply None_; [discriminate|reflexivity|intros WF _; destruct (proj2 (bundle_accepted_iff names input Hg) (wf_valid _ _ WF)); congruence]..].
  unfold write_outcome in R. destruct (generate_modules fuel b (module_files fuel cmd b)) as [files r'] eqn:G. cbn [fst snd] in R. injection R as <- ->.
  assert (Gn : generation fuel b (files, r)) by (rewrite <- G; destruct Hc as [->|[->|(e & ->)]]; [left|right; left|right; right; exists e]; reflexivity).
  assert (N := files_nodup _ _ _ _ _ _ Hg B Gn).
  unfold generate_modules in G. destruct (get_modules_ordered fuel b) as [l|x|] eqn:O;
    [|injection G as <- <-; apply None_; [discriminate|reflexivity|intros WF L; destruct (modules_ordered names input b fuel B (wf_imports _ _ WF) ltac:(lia)) as (l & O' & _); congruence]..].
  destruct (for_modules_stops _ _ _ _ _ G) as (l1 & l2 & fss & -> & F & -> & St). cbn [app] in *.
  destruct (order_sound _ _ _ _ _ B O) as (P & _). assert (C : config names input b) by (split; [|exact B]; assumption).
  destruct (order_modelled names input b fuel _ B O) as (order & T & S & Pi & _).
  rewrite map_app in S. apply Forall2_app_inv_r in S as (done & left & S1 & S2 & ->).
  assert (D : Forall2 (fun m bm => In m input /\ In bm (b_modules b) /\ same_module m (bm_mod bm)) done l1).
  { assert (I : forall bm, In bm l1 -> In bm (b_modules b)) by (intros bm H; apply (Permutation_in _ P); apply in_or_app; left; exact H).
    assert (J : forall m, In m done -> In m input) by (intros m H; apply (Permutation_in _ (Permutation_sym Pi)); apply in_or_app; left; exact H).
    clear - I J S1. revert done J S1. induction l1 as [|bm l1 IH]; intros done J S1; cbn [map] in S1; inversion S1 as [|m ? ds ? S F]; subst; constructor.
    - split; [apply J; left; reflexivity|]. split; [apply I; left; reflexivity|exact S].
    - apply IH; [intros x H; apply I; right; exact H|intros x H; apply J; right; exact H|exact F]. }
  assert (Wr : forall m, In m done -> In m input /\ written names cmd fuel input (folder_write_all (concat fss) fs) m).
  { intros m H. destruct (Forall2_in_l _ _ _ _ _ _ D H) as (bm & Hbm & Hin & Hb & S). split; [exact Hin|].
    destruct (Forall2_in_l _ _ _ _ _ _ F Hbm) as (fl & Hfl & E). exists b, bm, fl. split; [exact C|]. split; [exact Hb|]. split; [exact S|]. split; [exact E|].
    intros n s Hx. rewrite folder_get_all. rewrite (dict_get_NoDup _ n s (concat fss)); [reflexivity|exact N|]. apply in_concat. eauto. }
  exists done, left. split; [exact Pi|]. split; [intros _; exact T|]. split.
  { intros ->. destruct St as [(-> & _)|(m & l3 & _ & [(e & _ & E)|(_ & E)])]; [|discriminate E..]. inversion S2. reflexivity. }
  split.
  { apply Forall_forall. intros m H. destruct (Forall2_in_l _ _ _ _ _ _ D H) as (bm & Hbm & Hin & Hb & S).
    destruct (Forall2_in_l _ _ _ _ _ _ F Hbm) as (fl & _ & E). exact (one_needs names input cmd Hg Hc b B bm m Hb Hin S fuel fl E). }
  split.
  { intros WF L. split; [exact T|]. destruct St as [(-> & _)|(bm & l3 & -> & St)]; [left; inversion S2; reflexivity|right].
    cbn [map] in S2. inversion S2 as [|m ? rest ? S S3]; subst. exists m, rest. split; [reflexivity|]. intros M.
    assert (Hb : In bm (b_modules b)) by (apply (Permutation_in _ P); apply in_or_app; right; left; reflexivity).
    assert (Hin : In m input) by (apply (Permutation_in _ (Permutation_sym Pi)); apply in_or_app; right; left; reflexivity).
    destruct (one_suffices names input cmd Hg WF Hc b B bm m Hb Hin S fuel ltac:(lia) M) as (fl & E).
    destruct St as [(e & E' & _)|(E' & _)]; congruence. }
  assert (Ot : forall f, (forall m, In m done -> ~ file_of cmd m f) -> folder_get (folder_write_all (concat fss) fs) f = folder_get fs f).
  { intros f X. rewrite folder_get_all. replace (dict_get f (concat fss)) with (@None string); [reflexivity|]. symmetry. apply dict_get_None.
    intros H. apply in_map_iff in H as (x & <- & H). apply in_concat in H as (fl & Hfl & Hx).
    destruct (Forall2_in_r _ _ _ _ _ _ F Hfl) as (bm & Hbm & E). destruct (Forall2_in_r _ _ _ _ _ _ D Hbm) as (m & Hmd & Hin & Hb & S).
    apply (X m Hmd). apply (one_files names input cmd Hg Hc b B bm m Hb S fuel fl E). apply in_map. exact Hx. }
  split.
  { intros m f Hmd Hf. destruct (Wr m Hmd) as (Hin & Wm). assert (Wm' := Wm). destruct Wm' as (b' & bm & fl & Cb & Hbm & S & Hfl & Rw).
    assert (X := Hf). apply (one_files names input cmd Hg Hc b' (proj2 Cb) bm m Hbm S fuel fl Hfl) in X.
    apply in_map_iff in X as ([f' text] & <- & X). exists text. cbn [fst] in *. eapply one_file; [eassumption..|]. apply Rw. exact X. }
  intros f text. split.
  - intros E. destruct (any_file_of_dec names cmd done f Hc) as [(m & Hmd & X)|X].
    + left. exists m. split; [exact Hmd|]. destruct (Wr m Hmd) as (Hin & Wm). eapply one_file; eassumption.
    + right. split; [exact X|]. rewrite <- (Ot f X). exact E.
  - intros [(m & Hmd & Tx)|(X & E)]; [|rewrite (Ot f X); exact E]. destruct (Wr m Hmd) as (Hin & Wm).
    apply (one_file names cmd fuel input _ m Hc Hg Wm Hin f text (text_file_of _ _ _ _ _ Tx)). exact Tx.
Qed.

Theorem never_torn : forall names cmd fuel input fs fs' r f text, config_command names cmd -> Forall (fun m => grammatical m = true) input ->
  run fuel cmd input fs = (fs', r) -> folder_get fs' f = Some text ->
  folder_get fs f = Some text \/ exists m, In m input /\ file_text cmd input m f text.
Proof.
  intros names cmd fuel input fs fs' r f text Hc Hg R E. destruct (left_files _ _ _ _ _ _ _ Hc Hg R) as (done & rest & P & _ & _ & _ & _ & _ & X).
  destruct (proj1 (X f text) E) as [(m & Hm & T)|(_ & E0)]; [right; exists m; split; [|exact T]|left; exact E0].
  apply (Permutation_in _ (Permutation_sym P)). apply in_or_app. left. exact Hm.
Qed.
