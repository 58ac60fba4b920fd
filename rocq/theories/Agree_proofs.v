(** * Proofs: the headers of different commands declare the same types (C86) *)
From Coq Require Import Permutation Lia.
From Verif Require Import Base PyNum PyStr Ast Size Processor Bundle Sorter CCommon GenCfs GenC GenBinary GenCosmos Main
  Lib_proofs Spec_Check Check_proofs Spec_Grammar Spec_Bundle Bundle_proofs Accept_proofs Spec_Gen Gen_proofs Spec_C Spec_Header Header2_proofs Header3_proofs Order_proofs Field_proofs
  Fuel_proofs Spec_Inputs Inputs_proofs Spec_Printed Printed_proofs Spec_Agree.
Open Scope string_scope.
Open Scope list_scope.

Section Declared.
Variables (names names' : list string) (input input' : list module) (b b' : bundle).
Hypothesis C : config names input b.
Hypothesis C' : config names' input' b'.
Hypothesis I : incl input input'.
Variables (bm bm' : bmodule).
Hypothesis Hbm : In bm (b_modules b).
Hypothesis Hbm' : In bm' (b_modules b').
Hypothesis E : bm_mod bm = bm_mod bm'.

Lemma declares_same : forall fuel d xs ys, In d (mod_defs (bm_mod bm)) ->
  declares fuel (all_defs b) (simple_definition_list b bm) d xs ->
  declares fuel (all_defs b') (simple_definition_list b' bm') d ys -> xs = ys.
Proof.
  intros fuel d xs ys J H H'. rewrite <- (inside_simple_list names names' input input' b b' C C' I bm bm' Hbm Hbm' E) in H'.
  destruct H as [n t c|n c l fields F|n c l|n c l]; inversion H' as [| ? ? ? fields' F' | |]; subst; try reflexivity. do 2 f_equal.
  assert (M : forall k, In k l -> convert_member fuel (all_defs b) (simple_definition_list b bm) k
    = convert_member fuel (all_defs b') (simple_definition_list b bm) k).
  { intros k K. apply (convert_member_cong _ _ (met b b') (lookup_inside names names' input input' b b' C C' I)).
    - exact (met_closed names names' input input' b b' C C').
    - apply (members_met names names' input input' b b' C C' n c l k); [|exact K]. apply in_all_defs. eauto. }
  clear H' J. revert fields' F'. induction F as [|k f l fields (sb & si & H) F IH]; intros fields' F'; inversion F' as [|? f' ? r (sb' & si' & H') F'']; subst; [reflexivity|].
  rewrite (M k (or_introl eq_refl)) in H. rewrite H' in H. injection H as -> -> ->. f_equal. apply IH; [|exact F'']. intros x X. apply M. right. exact X.
Qed.

Lemma data_same : forall fuel c c', generated fuel b bm c -> generated fuel b' bm' c' -> cd_data c = cd_data c'.
Proof.
  intros fuel c c' G G'. destruct (generated_data _ _ _ _ G) as (so & dss & S & -> & F). destruct (generated_data _ _ _ _ G') as (so' & dss' & S' & -> & F').
  rewrite <- E in S'. assert (so' = so) as -> by congruence. f_equal. assert (P := sorted_perm _ _ _ S).
  assert (In_ : forall d, In d so -> In d (mod_defs (bm_mod bm))) by (intros d D; eapply Permutation_in; [exact P|exact D]). clear S S' P.
  revert dss' F'. induction F as [|d xs so dss D F IH]; intros dss' F'; inversion F' as [|? ys ? r D' F'']; subst; [reflexivity|].
  f_equal; [eapply declares_same; [apply In_; left; reflexivity|exact D|exact D']|]. apply IH; [|exact F'']. intros x X. apply In_. right. exact X.
Qed.
End Declared.

Lemma types_said : forall g i c vs, types_of (mkheader g i (map said c ++ map (fun x : string * string => XVar (fst x) (snd x)) vs)) = map said c.
Proof.
  intros g i c vs. unfold types_of. cbn [h_decls]. rewrite filter_app.
  assert (A : filter (fun x => negb (is_variable x)) (map said c) = map said c).
  { induction c as [|x c IH]; [reflexivity|]. cbn [map filter]. destruct x; cbn [said is_variable negb]; rewrite IH; reflexivity. }
  assert (B : filter (fun x => negb (is_variable x)) (map (fun x : string * string => XVar (fst x) (snd x)) vs) = []).
  { induction vs as [|x vs IH]; [reflexivity|exact IH]. }
  rewrite A, B. apply app_nil_r.
Qed.
Lemma systems_said : forall g d (s : bool) (f : import_item -> string) l,
  systems_of (mkheader g ((if s then [System "stdint"] else []) ++ map (fun it => Local (f it)) l) d) = (if s then [System "stdint"] else []).
Proof.
  intros g d s f l. unfold systems_of. cbn [h_includes]. rewrite filter_app.
  assert (B : filter (fun i => match i with System _ => true | Local _ => false end) (map (fun it => Local (f it)) l) = []).
  { induction l as [|x l IH]; [reflexivity|exact IH]. }
  rewrite B, app_nil_r. destruct s; reflexivity.
Qed.

Lemma bm_unique : forall names input b x y, config names input b -> In x (b_modules b) -> In y (b_modules b) -> mod_name (bm_mod x) = mod_name (bm_mod y) -> x = y.
Proof.
  intros names input b x y (_ & B) X Y En. assert (N := proj1 (config_module_names _ _ _ B)).
  destruct (In_nth_error _ _ X) as (i & Hi). destruct (In_nth_error _ _ Y) as (j & Hj).
  assert (i = j) by (apply (NoDup_nth_error_map _ _ bm_name _ i j x y N Hi Hj En)). congruence.
Qed.

Theorem same_types : forall names names' cmd cmd' fuel fuel' input input' fs fs' fs1 fs2 m,
  config_command names cmd -> config_command names' cmd' -> Forall (fun m => grammatical m = true) input' -> incl input input' ->
  run fuel cmd input fs = (fs1, Ok tt) -> run fuel' cmd' input' fs' = (fs2, Ok tt) -> In m input -> quiet m ->
  exists h h', header_reads cmd fs1 (mod_name m) h /\ header_reads cmd' fs2 (mod_name m) h'
    /\ types_of h = types_of h' /\ systems_of h = systems_of h'.
Proof.
  intros names names' cmd cmd' fuel fuel' input input' fs fs' fs1 fs2 m Hc Hc' G' I R R' M Q.
  assert (G : Forall (fun m => grammatical m = true) input).
  { apply Forall_forall. rewrite Forall_forall in G'. intros x X. apply G', I, X. }
  assert (U := run_more fuel (Nat.max fuel fuel') cmd input fs (Nat.le_max_l _ _)).
  assert (U' := run_more fuel' (Nat.max fuel fuel') cmd' input' fs' (Nat.le_max_r _ _)).
  rewrite R in U. rewrite R' in U'. specialize (U ltac:(discriminate)). specialize (U' ltac:(discriminate)).
  revert U U'. generalize (Nat.max fuel fuel') as n. intros n U U'. clear R R' fuel fuel'.
  destruct (header_of_run _ _ _ _ _ _ m Hc G U M Q) as (b & bm & c & so & text & C & Hbm & S & Gc & _ & T & Rd).
  destruct (header_of_run _ _ _ _ _ _ m Hc' G' U' (I m M) Q) as (b' & bm' & c' & so' & text' & C' & Hbm' & S' & Gc' & _ & T' & Rd').
  assert (Eb : bm_mod bm = bm_mod bm').
  { destruct (module_bmodule _ _ _ m C M) as (x & X & Px). destruct (module_bmodule _ _ _ m C' (I m M)) as (y & Y & Py).
    assert (x = bm) as -> by (eapply bm_unique; [exact C|exact X|exact Hbm|rewrite (proj1 (parse_module_same _ _ Px)); symmetry; apply S]).
    assert (y = bm') as -> by (eapply bm_unique; [exact C'|exact Y|exact Hbm'|rewrite (proj1 (parse_module_same _ _ Py)); symmetry; apply S']).
    congruence. }
  assert (D := data_same _ _ _ _ _ _ C C' I bm bm' Hbm Hbm' Eb n c c' Gc Gc').
  eexists. eexists. split; [exists text; split; [exact T|exact Rd]|]. split; [exists text'; split; [exact T'|exact Rd']|].
  rewrite !types_said, !systems_said, D. split; [reflexivity|].
  assert (Z : cd_stdint c = cd_stdint c'); [|rewrite Z; reflexivity].
  apply Bool.eq_iff_eq_true. rewrite (std_used _ _ _ _ C Hbm n c Gc), (std_used _ _ _ _ C' Hbm' n c' Gc'), D. reflexivity.
Qed.

(** ** The text *)
Lemma same_order : forall ds l l' sorted, NoDup (map def_name ds) -> incl l ds -> incl l' ds ->
  Forall2 same_definition l sorted -> Forall2 same_definition l' sorted -> l = l'.
Proof.
  intros ds l l' sorted N Il Il' F. revert l' Il'. induction F as [|d x l sorted S F IH]; intros l' Il' F'; inversion F' as [|d' ? l1 ? S' F1]; subst; [reflexivity|].
  f_equal.
  - assert (En : def_name d = def_name d') by (rewrite <- (same_definition_name _ _ S), <- (same_definition_name _ _ S'); reflexivity).
    destruct (In_nth_error _ _ (Il d (or_introl eq_refl))) as (i & Hi). destruct (In_nth_error _ _ (Il' d' (or_introl eq_refl))) as (j & Hj).
    assert (i = j) by (apply (NoDup_nth_error_map _ _ def_name _ i j d d' N Hi Hj En)). congruence.
  - apply IH; [|intros y Y; apply Il'; right; exact Y|exact F1]. intros y Y. apply Il. right. exact Y.
Qed.

Theorem same_text : forall names names' cmd cmd' fuel fuel' input input' fs fs' fs1 fs2 m,
  config_command names cmd -> config_command names' cmd' -> Forall (fun m => grammatical m = true) input' -> incl input input' ->
  run fuel cmd input fs = (fs1, Ok tt) -> run fuel' cmd' input' fs' = (fs2, Ok tt) -> In m input ->
  exists order pieces std notes notes',
    folder_get fs1 (header_name cmd (mod_name m)) = Some (header_text cmd m order std notes (map snd pieces))
    /\ folder_get fs2 (header_name cmd' (mod_name m)) = Some (header_text cmd' m order std notes' (map snd pieces))
    /\ Permutation order (mod_defs m)
    /\ Forall2 (note_printed cmd input) order notes /\ Forall2 (note_printed cmd' input') order notes'
    /\ Forall2 (fun d p => definition_printed (definitions input) d (fst p) (snd p)) order pieces.
Proof.
  intros names names' cmd cmd' fuel fuel' input input' fs fs' fs1 fs2 m Hc Hc' G' I R R' M.
  assert (G : Forall (fun m => grammatical m = true) input).
  { apply Forall_forall. rewrite Forall_forall in G'. intros x X. apply G', I, X. }
  assert (U := run_more fuel (Nat.max fuel fuel') cmd input fs (Nat.le_max_l _ _)).
  assert (U' := run_more fuel' (Nat.max fuel fuel') cmd' input' fs' (Nat.le_max_r _ _)).
  rewrite R in U. rewrite R' in U'. specialize (U ltac:(discriminate)). specialize (U' ltac:(discriminate)).
  revert U U'. generalize (Nat.max fuel fuel') as n. intros n U U'. clear R R' fuel fuel'.
  destruct (header_printed_of _ _ _ _ _ _ m Hc G U M) as (b & bm & c & order & ps & std & ns & C & Hbm & S & Gc & T & P & _ & N & D & _ & (so & Hso & Fo) & Es & Et).
  destruct (header_printed_of _ _ _ _ _ _ m Hc' G' U' (I m M)) as (b' & bm' & c' & order' & ps' & std' & ns' & C' & Hbm' & S' & Gc' & T' & P' & _ & N' & D' & _ & (so' & Hso' & Fo') & Es' & Et').
  assert (Eb : bm_mod bm = bm_mod bm').
  { destruct (module_bmodule _ _ _ m C M) as (x & X & Px). destruct (module_bmodule _ _ _ m C' (I m M)) as (y & Y & Py).
    assert (x = bm) as -> by (eapply bm_unique; [exact C|exact X|exact Hbm|rewrite (proj1 (parse_module_same _ _ Px)); symmetry; apply S]).
    assert (y = bm') as -> by (eapply bm_unique; [exact C'|exact Y|exact Hbm'|rewrite (proj1 (parse_module_same _ _ Py)); symmetry; apply S']).
    congruence. }
  assert (X := data_same _ _ _ _ _ _ C C' I bm bm' Hbm Hbm' Eb n c c' Gc Gc').
  assert (Z : cd_stdint c = cd_stdint c').
  { apply Bool.eq_iff_eq_true. rewrite (std_used _ _ _ _ C Hbm n c Gc), (std_used _ _ _ _ C' Hbm' n c' Gc'), X. reflexivity. }
  rewrite <- Eb in Hso'. assert (so' = so) as -> by congruence.
  assert (order' = order) as ->.
  { apply (same_order (definitions input') _ _ so); try assumption.
    - apply (config_names names' input' b'). apply C'.
    - intros x Hx. unfold definitions. apply in_flat_map. exists m. split; [apply I, M|]. apply (Permutation_in _ P'), Hx.
    - intros x Hx. unfold definitions. apply in_flat_map. exists m. split; [apply I, M|]. apply (Permutation_in _ P), Hx. }
  exists order, ps, std, ns, ns'. split; [exact T|]. split; [|auto].
  rewrite T'. unfold header_text. rewrite Et', Et, Es', Es, X, Z. reflexivity.
Qed.
