(** * Proofs: other names for the types, bundles and sizes (C96) *)
From Verif Require Import Base PyNum PyStr Ast Size Processor Bundle Sorter Main
  Lib_proofs Spec_Enum Spec_Check Enum_proofs Check_proofs Bundle_proofs Plain_proofs Spec_Rename.
Open Scope string_scope.
Open Scope list_scope.

Section Renaming.
Variables r s : string -> string.
Hypothesis RN : renaming r s.
Notation rt := (rename_type r).
Notation rm := (rename_member r).
Notation rd := (rename_definition r).

Lemma r_inj : forall a b, r a = r b -> a = b.
Proof. intros a b H. rewrite <- (rn_back _ _ RN a), <- (rn_back _ _ RN b), H. reflexivity. Qed.
Lemma eqb_r : forall a b, String.eqb (r a) (r b) = String.eqb a b.
Proof.
  intros a b. destruct (String.eqb_spec a b) as [->|N]; [apply String.eqb_refl|]. apply String.eqb_neq. intros H. apply N, r_inj, H.
Qed.
Lemma mem_r : forall n l, mem (r n) (map r l) = mem n l.
Proof. intros n. induction l as [|x l IH]; [reflexivity|]. unfold mem in *. cbn [map existsb]. rewrite eqb_r, IH. reflexivity. Qed.
Lemma eqb_reserved : forall n k, In k RESERVED -> String.eqb (r n) k = String.eqb n k.
Proof. intros n k H. rewrite <- (rn_reserved _ _ RN k H) at 1. apply eqb_r. Qed.
Lemma map_reserved : forall l, incl l RESERVED -> map r l = l.
Proof.
  induction l as [|x l IH]; intros H; [reflexivity|]. cbn [map]. rewrite IH by (intros y Y; apply H; right; exact Y).
  rewrite (rn_reserved _ _ RN x) by (apply H; left; reflexivity). reflexivity.
Qed.
Lemma mem_reserved : forall n l, incl l RESERVED -> mem (r n) l = mem n l.
Proof. intros n l H. rewrite <- (map_reserved l H) at 1. apply mem_r. Qed.
Lemma predefined_reserved : incl PREDEFINED_LIST RESERVED.
Proof. intros x H. cbn in *. intuition. Qed.

Lemma type_name_r : forall t, type_name (rt t) = r (type_name t).
Proof.
  induction t as [g|g| | |k n|n e IH|n]; cbn [rename_type type_name]; try (symmetry; apply (rn_reserved _ _ RN); cbn; intuition; fail).
  - symmetry. apply (rn_reserved _ _ RN). destruct k; cbn; intuition.
  - exact IH.
  - reflexivity.
Qed.
Lemma type_begin_r : forall t, type_begin (rt t) = type_begin t.
Proof. intros []; reflexivity. Qed.
Lemma type_end_r : forall t, type_end (rt t) = type_end t.
Proof. intros []; reflexivity. Qed.

Lemma posix_r : forall n, posix_range (r n) = posix_range n.
Proof.
  intros n. unfold posix_range, ASN1_POSIX_RANGE. cbn [dict_get]. rewrite !eqb_reserved by (cbn; intuition). reflexivity.
Qed.
Lemma posix_kept : forall n p, posix_range n = Some p -> r n = n.
Proof.
  intros n p H. apply (rn_reserved _ _ RN). unfold posix_range, ASN1_POSIX_RANGE in H. apply dict_get_In in H.
  cbn [In] in H. repeat (destruct H as [H|H]; [injection H as <- _; cbn; intuition|]). destruct H.
Qed.

Lemma asn1_type_r : forall t, asn1_type (rt t) = asn1_type t.
Proof.
  intros t. unfold asn1_type. cbv zeta. rewrite type_begin_r, type_end_r, type_name_r, posix_r. apply bind_ext. intros _.
  destruct (posix_range (type_name t)) as [p|] eqn:P; [rewrite (posix_kept _ _ P); reflexivity|].
  rewrite !eqb_reserved by (cbn; intuition). destruct t; reflexivity.
Qed.
Lemma c_type_r : forall t, get_c_type (rt t) = get_c_type t.
Proof. intros t. unfold get_c_type. rewrite asn1_type_r. reflexivity. Qed.
Lemma process_type_r : forall t, process_type (rt t) = process_type t.
Proof.
  assert (A := asn1_type_r).
  induction t as [g|g| | |k n|n e IH|n]; try reflexivity.
  - cbn [process_type rename_type]. rewrite IH. specialize (A (TArray n e)). cbn [rename_type] in A. rewrite A. reflexivity.
  - cbn [process_type rename_type]. specialize (A (TName n)). cbn [rename_type] in A. rewrite A. reflexivity.
Qed.
Lemma null_r : forall t, null_check (rt t) = null_check t.
Proof. intros t. unfold null_check. rewrite type_name_r, eqb_reserved by (cbn; intuition). reflexivity. Qed.
Lemma check_posix_r : forall n t, check_posix (r n) (rt t) = check_posix n t.
Proof. intros n t. unfold check_posix. rewrite posix_r, type_begin_r, type_end_r. reflexivity. Qed.

Lemma process_member_r : forall m, process_member (rm m) = process_member m.
Proof. intros m. unfold process_member. cbn [rename_member m_type m_comment m_with]. rewrite process_type_r, null_r. reflexivity. Qed.
Lemma process_definition_r : forall d, process_definition (rd d) = rmap rd (process_definition d).
Proof.
  intros [n c l|n c l|n c l|n t c]; cbn [rename_definition process_definition].
  1,2: apply bind_rmap_same; intros _ _; rewrite for_each_map, (for_each_ext _ (fun a => process_member (rm a)) process_member)
         by (intros a _; apply process_member_r); apply bind_rmap_same; reflexivity.
  - do 3 (apply bind_rmap_same; intros ? _). reflexivity.
  - rewrite process_type_r, null_r, check_posix_r. do 4 (apply bind_rmap_same; intros ? _). reflexivity.
Qed.

Lemma def_name_r : forall d, def_name (rd d) = r (def_name d).
Proof. intros []; reflexivity. Qed.
Lemma names_r : forall l, map def_name (map rd l) = map r (map def_name l).
Proof. intros l. rewrite !map_map. apply map_ext. exact def_name_r. Qed.
Lemma children_r : forall d, def_children (rd d) = map rm (def_children d).
Proof. intros []; reflexivity. Qed.
Lemma seq_children_r : forall d, seq_children (rd d) = map rm (seq_children d).
Proof. intros []; reflexivity. Qed.
Lemma imp_names_r : forall m, flatten (map imp_names (mod_imports (rename r m))) = map r (flatten (map imp_names (mod_imports m))).
Proof.
  intros m. unfold flatten. cbn [rename mod_imports]. rewrite map_map, concat_map, map_map. reflexivity.
Qed.
Lemma defined_types_r : forall m, defined_types (rename r m) = map r (defined_types m).
Proof.
  intros m. unfold defined_types. rewrite imp_names_r, !map_app, (map_reserved _ predefined_reserved). cbn [rename mod_defs]. rewrite names_r. reflexivity.
Qed.
Lemma used_types_r : forall m, check_used_types_defined (rename r m) = check_used_types_defined m.
Proof.
  intros m. unfold check_used_types_defined. rewrite defined_types_r. cbn [rename mod_defs]. rewrite for_each_map. apply for_each_ext. intros d _.
  rewrite children_r, for_each_map. apply for_each_ext. intros k _. cbn [rename_member m_type]. rewrite type_name_r, mem_r. reflexivity.
Qed.

Lemma parse_r : forall m, parse_module (rename r m) = rmap (rename r) (parse_module m).
Proof.
  intros m. unfold parse_module. cbn [rename mod_comment mod_imports mod_comment_import mod_defs mod_name]. apply bind_rmap_same. intros _ _.
  rewrite for_each_map. apply bind_rmap_same. intros _ _. apply bind_rmap_same. intros _ _.
  rewrite (map_result_map _ _ _ _ rd rd process_definition) by (intros d _; apply process_definition_r). apply rmap_bind. intros defs _.
  pose proof (used_types_r (mkmodule (mod_name m) (mod_comment m) (mod_imports m) (mod_comment_import m) defs)) as U.
  unfold rename in U. cbn [mod_comment mod_imports mod_comment_import mod_defs mod_name] in U. rewrite U. apply bind_rmap_same. reflexivity.
Qed.
Lemma parse_all_r : forall l, parse_modules (map (rename r) l) = rmap (map (rename r)) (parse_modules l).
Proof. intros l. apply map_result_map. intros m _. apply parse_r. Qed.

(** ** Bundles *)

Definition ren_bm (bm : bmodule) : bmodule := mkbmodule (rename r (bm_mod bm)) (bm_imported bm).
Definition ren_bundle (b : bundle) : bundle :=
  mkbundle (map ren_bm (b_modules b)) (map (fun x => (r (fst x), snd x)) (b_uses b)).

Lemma mod_names_r : forall l, map mod_name (map (rename r) l) = map mod_name l.
Proof. intros l. rewrite map_map. reflexivity. Qed.
Lemma bm_names_r : forall l, map bm_name (map ren_bm l) = map bm_name l.
Proof. intros l. rewrite map_map. reflexivity. Qed.
Lemma dependencies_r : forall m, dependencies (rename r m) = dependencies m.
Proof. intros m. unfold dependencies. cbn [rename mod_imports]. rewrite map_map. reflexivity. Qed.
Lemma last_index_r : forall n l i, last_index_from i n (map (rename r) l) = last_index_from i n l.
Proof. intros n. induction l as [|m l IH]; intros i; simpl; [reflexivity|]. rewrite IH. reflexivity. Qed.
Lemma check_dependencies_r : forall l, check_dependencies (map (rename r) l) = check_dependencies l.
Proof.
  intros l. unfold check_dependencies. rewrite mod_names_r. apply for_each_ext. intros n _. unfold last_index. rewrite last_index_r.
  destruct (last_index_from 0 n l) as [i|]; [|reflexivity]. rewrite nth_error_map. destruct (nth_error l i) as [m|]; cbn [option_map]; [|reflexivity].
  rewrite dependencies_r. reflexivity.
Qed.
Lemma imported_r : forall l i m, imported_of (map (rename r) l) i (rename r m) = imported_of l i m.
Proof.
  intros l i m. unfold imported_of, last_index. rewrite last_index_r, dependencies_r. cbn [rename mod_name].
  destruct (last_index_from 0 (mod_name m) l) as [j|]; [|reflexivity]. destruct (Nat.eqb i j); [|reflexivity].
  apply flat_map_ext. intros n. rewrite last_index_r. reflexivity.
Qed.
Lemma attach_r : forall ms l i, attach_imports (map (rename r) ms) i (map (rename r) l) = map ren_bm (attach_imports ms i l).
Proof. intros ms. induction l as [|m l IH]; intros i; simpl; [reflexivity|]. rewrite IH, imported_r. reflexivity. Qed.
Lemma simple_uses_r : forall m, parse_for_simple_defs (rename r m) = map r (parse_for_simple_defs m).
Proof.
  intros m. unfold parse_for_simple_defs. cbn [rename mod_defs]. rewrite flat_map_map, map_flat_map. apply flat_map_ext. intros d.
  rewrite children_r, flat_map_map, map_flat_map. apply flat_map_ext. intros k. cbn [rename_member m_with m_type]. destruct (m_with k); [reflexivity|].
  cbv zeta. rewrite type_name_r, (mem_reserved _ _ predefined_reserved). destruct (mem _ _); reflexivity.
Qed.
Lemma add_use_r : forall n mn u, add_use (r n) mn (map (fun x => (r (fst x), snd x)) u) = map (fun x => (r (fst x), snd x)) (add_use n mn u).
Proof. intros n mn. induction u as [|[k v] u IH]; simpl; [reflexivity|]. rewrite eqb_r, IH. destruct (String.eqb n k); reflexivity. Qed.
Lemma module_uses_r : forall m u, module_uses (map (fun x => (r (fst x), snd x)) u) (rename r m) = map (fun x => (r (fst x), snd x)) (module_uses u m).
Proof.
  intros m. unfold module_uses. rewrite simple_uses_r. cbn [rename mod_name]. induction (parse_for_simple_defs m) as [|n l IH]; intros u; [reflexivity|].
  cbn [map fold_left]. rewrite add_use_r. apply IH.
Qed.
Lemma uses_r : forall l u, fold_left module_uses (map (rename r) l) (map (fun x => (r (fst x), snd x)) u) = map (fun x => (r (fst x), snd x)) (fold_left module_uses l u).
Proof. induction l as [|m l IH]; intros u; [reflexivity|]. cbn [map fold_left]. rewrite module_uses_r. apply IH. Qed.
Lemma build_r : forall l, build (map (rename r) l) = rmap ren_bundle (build l).
Proof.
  intros l. unfold build. cbv zeta. rewrite check_dependencies_r. apply bind_rmap_same. intros _ _. rewrite attach_r.
  pose proof (uses_r l []) as U. cbn [map] in U. rewrite U. reflexivity.
Qed.

Lemma all_defs_r : forall b, all_defs (ren_bundle b) = map rd (all_defs b).
Proof. intros b. unfold all_defs, all_modules. cbn [ren_bundle b_modules]. rewrite map_map, !flat_map_map, map_flat_map. reflexivity. Qed.

Lemma sequences_named_r : forall l n, sequences_named (map rd l) (r n) = map rd (sequences_named l n).
Proof. intros l n. unfold sequences_named. rewrite filter_map. f_equal. apply filter_ext. intros d. rewrite def_name_r. apply eqb_r. Qed.
Lemma check_wcomps_r : forall seqs w n, check_wcomps (map rd seqs) (r n) w = check_wcomps seqs n w.
Proof.
  intros seqs. induction w as [c l IH] using clause_ind. intros n. rewrite !check_wcomps_eq, sequences_named_r.
  destruct (sequences_named seqs n) as [|q [|q' ls]]; cbn [map]; try (rewrite (mem_reserved _ _ predefined_reserved); reflexivity).
  unfold check_items. apply for_each_ext. intros [k v cm] I. rewrite seq_children_r, map_map.
  change (map (fun x => m_key (rm x)) (seq_children q)) with (map m_key (seq_children q)).
  apply bind_ext. intros _. destruct v as [z|f|b|w]; try reflexivity. rewrite find_map. cbn [rename_member m_key].
  destruct (find _ (seq_children q)) as [m|]; cbn [option_map]; [|reflexivity]. cbn [rename_member m_type]. rewrite type_name_r. apply (IH k w cm I).
Qed.
Lemma is_sequence_r : forall d, is_sequence (rd d) = is_sequence d.
Proof. intros []; reflexivity. Qed.
Lemma components_defined_r : forall l, check_used_components_defined (map rd l) = check_used_components_defined l.
Proof.
  intros l. unfold check_used_components_defined. cbv zeta. rewrite filter_map, (filter_ext _ _ is_sequence_r), for_each_map.
  apply for_each_ext. intros d _. rewrite seq_children_r, for_each_map. apply for_each_ext. intros k _. cbn [rename_member m_with m_type].
  destruct (m_with k) as [w|]; [|reflexivity]. rewrite type_name_r. apply check_wcomps_r.
Qed.
Lemma duplicates_r : forall l seen, check_duplicates (map r seen) (map rd l) = check_duplicates seen l.
Proof.
  induction l as [|d l IH]; intros seen; [reflexivity|]. cbn [map check_duplicates]. rewrite def_name_r, mem_r. destruct (mem _ _); [reflexivity|].
  apply (IH (def_name d :: seen)).
Qed.
Lemma set_diff_r : forall a b, is_nil (set_diff (map r a) (map r b)) = is_nil (set_diff a b).
Proof.
  intros a b. unfold set_diff. rewrite filter_map, (filter_ext _ (fun x => negb (mem x b))) by (intros x; rewrite mem_r; reflexivity).
  destruct (filter _ a); reflexivity.
Qed.
Lemma check_imports_r : forall b, check_imports (ren_bundle b) = check_imports b.
Proof.
  intros b. unfold check_imports. cbn [ren_bundle b_modules]. rewrite for_each_map. apply for_each_ext. intros bm _. cbn [ren_bm bm_imported]. apply for_each_ext. intros i _.
  rewrite nth_error_map. destruct (nth_error (b_modules b) i) as [im|]; cbn [option_map]; [|reflexivity]. cbv zeta.
  cbn [ren_bm bm_mod rename mod_defs mod_imports]. rewrite names_r, filter_map, map_map. cbn [rename_import imp_names imp_module].
  change (bm_name (ren_bm im)) with (bm_name im).
  rewrite <- (set_diff_r _ (map def_name _)). unfold flatten. rewrite concat_map, !map_map. reflexivity.
Qed.
Lemma validate_r : forall b, validate_bundle (ren_bundle b) = validate_bundle b.
Proof.
  intros b. unfold validate_bundle, check_imported_types_and_components. rewrite check_imports_r, all_defs_r, components_defined_r.
  rewrite <- (duplicates_r (all_defs b) []). reflexivity.
Qed.
Lemma build_config_r : forall names input, build_from_config names (map (rename r) input) = rmap ren_bundle (build_from_config names input).
Proof.
  intros names input. unfold build_from_config. rewrite parse_all_r. apply rmap_bind. intros ms _.
  unfold validate_unique_module_names. rewrite mod_names_r. apply bind_rmap_same. intros _ _. rewrite build_r. apply rmap_bind.
  intros b _. rewrite validate_r. apply bind_rmap_same. intros _ _. unfold check_missing_modules, module_names. cbn [ren_bundle b_modules]. rewrite bm_names_r.
  apply bind_rmap_same. reflexivity.
Qed.
Lemma build_cosmos_r : forall input, build_from_cosmos_config (map (rename r) input) = rmap ren_bundle (build_from_cosmos_config input).
Proof.
  intros input. unfold build_from_cosmos_config. rewrite parse_all_r. apply rmap_bind. intros ms _.
  rewrite build_r. apply rmap_bind. intros b _. rewrite validate_r. apply bind_rmap_same. reflexivity.
Qed.

(** ** Sizes *)

Lemma dict_get_r : forall A n (l : list (string * A)), dict_get (r n) (map (fun x => (r (fst x), snd x)) l) = dict_get n l.
Proof. intros A n. induction l as [|[k v] l IH]; simpl; [reflexivity|]. rewrite IH, eqb_r. reflexivity. Qed.
Lemma lookup_r : forall l n, lookup_def (map rd l) (r n) = option_map rd (lookup_def l n).
Proof.
  intros l n. unfold lookup_def. rewrite <- dict_get_map, <- (dict_get_r _ n), !map_map. f_equal. apply map_ext. intros d. cbn [fst snd]. rewrite def_name_r. reflexivity.
Qed.
Definition ren_rtype (x : rtype) : rtype := match x with RDef d => RDef (rd d) | RArray n e => RArray n (rt e) | _ => x end.
Lemma resolve_r : forall l t, resolve (map rd l) (rt t) = ren_rtype (resolve l t).
Proof.
  intros l t. assert (E : lookup_def (map rd l) (type_name (rt t)) = option_map rd (lookup_def l (type_name t))) by (rewrite type_name_r; apply lookup_r).
  destruct t as [g|g| | |k n|n e|n]; cbn [rename_type] in E |- *; try reflexivity; unfold resolve; rewrite E;
    (match goal with |- context [option_map _ (lookup_def l ?x)] => destruct (lookup_def l x) end; reflexivity).
Qed.
Lemma base_size_r : forall t, base_size (rt t) = base_size t.
Proof. intros t. unfold base_size. rewrite c_type_r, type_begin_r, type_end_r. reflexivity. Qed.
Lemma simple_size_r : forall t, simple_size (rt t) = simple_size t.
Proof.
  intros t. assert (B := base_size_r t). destruct t; try reflexivity. exact B.
Qed.
Lemma size_r : forall fuel l t, member_size fuel (map rd l) (rt t) = member_size fuel l t.
Proof.
  induction fuel as [|fuel IH]; intros l t; [reflexivity|]. cbn [member_size]. rewrite resolve_r.
  destruct (resolve l t) as [n e|n|[n c ms|n c ms|n c is|n t' c]|]; try reflexivity.
  - cbn [ren_rtype rename_definition]. rewrite fold_left_map. generalize (@Ok Z 0%Z). induction ms as [|m ms IHm]; intros a; [reflexivity|].
    cbn [fold_left]. cbn [rename_member m_type]. rewrite IH. apply IHm.
  - cbn [ren_rtype rename_definition]. apply simple_size_r.
  - cbn [ren_rtype]. apply base_size_r.
Qed.
End Renaming.
