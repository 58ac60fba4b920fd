(** * Proofs: other names for the types, COSMOS files (C96) *)
From Verif Require Import Base PyNum PyStr Ast Size Processor Bundle Sorter CCommon GenCosmos Main
  Lib_proofs Str_proofs Spec_Check Check_proofs Bundle_proofs Plain_proofs Plain_runs_proofs Spec_Rename Rename_proofs.
Open Scope string_scope.
Open Scope list_scope.

Section Renaming.
Variables r s : string -> string.
Hypothesis RN : renaming r s.
Notation rt := (rename_type r).
Notation rm := (rename_member r).
Notation rd := (rename_definition r).
Notation rb := (ren_bundle r).

Definition ren_dref (d : dref) : dref := mkdref (dr_mod d) (dr_pos d) (rd (dr_def d)).

Lemma number_defs_r : forall mi l i, number_defs mi i (map rd l) = map ren_dref (number_defs mi i l).
Proof. intros mi. induction l as [|d l IH]; intros i; simpl; [reflexivity|]. rewrite IH. reflexivity. Qed.
Lemma module_drefs_r : forall b mi, module_drefs (rb b) mi = map ren_dref (module_drefs b mi).
Proof.
  intros b mi. unfold module_drefs. cbn [ren_bundle b_modules]. rewrite nth_error_map. destruct (nth_error (b_modules b) mi) as [bm|]; cbn [option_map]; [|reflexivity].
  apply number_defs_r.
Qed.
Lemma dedup_r : forall l, dedup_drefs (map ren_dref l) = map ren_dref (dedup_drefs l).
Proof. induction l as [|d l IH]; simpl; [reflexivity|]. rewrite IH, filter_map. reflexivity. Qed.

Lemma recurs_r : forall fuel b n mi, definitions_recurs fuel (rb b) (r n) mi = rmap (map ren_dref) (definitions_recurs fuel b n mi).
Proof.
  induction fuel as [|fuel IH]; intros b n mi; [reflexivity|]. cbn [definitions_recurs]. rewrite module_drefs_r. cbn [ren_bundle b_modules].
  rewrite nth_error_map.
  replace (match option_map (ren_bm r) (nth_error (b_modules b) mi) with Some bm => bm_imported bm | None => [] end)
    with (match nth_error (b_modules b) mi with Some bm => bm_imported bm | None => [] end)
    by (destruct (nth_error (b_modules b) mi); reflexivity).
  set (is := match nth_error (b_modules b) mi with Some bm => bm_imported bm | None => [] end).
  rewrite <- (map_id is) at 1.
  rewrite (map_result_map _ _ _ _ (fun x => x) (map ren_dref) (definitions_recurs fuel b n)) by (intros a _; apply IH).
  apply rmap_bind. intros ls _. cbn [rmap]. f_equal. rewrite <- dedup_r. f_equal.
  unfold flatten. rewrite <- concat_map, <- map_app, filter_map. f_equal. apply filter_ext. intros d. cbn [ren_dref dr_def].
  rewrite def_name_r. apply (eqb_r r s RN).
Qed.
Lemma get_definition_r : forall fuel b n mi, get_definition fuel (rb b) (r n) mi = rmap ren_dref (get_definition fuel b n mi).
Proof. intros fuel b n mi. unfold get_definition. rewrite recurs_r. apply rmap_bind. intros [|d [|d' l]] _; reflexivity. Qed.

Definition ren_info (i : leaf_info) : leaf_info := match i with Nested d => Nested (ren_dref d) | _ => i end.

Lemma member_info_r : forall fuel b mi t, member_info fuel (rb b) mi (rt t) = rmap ren_info (member_info fuel b mi t).
Proof.
  intros fuel b mi t. unfold member_info. cbv zeta. rewrite (c_type_r r s RN), type_begin_r, type_end_r, (type_name_r r s RN).
  rewrite (mem_reserved r s RN) by (intros x X; cbn in *; intuition). rewrite (eqb_reserved r s RN) by (cbn; intuition).
  destruct (mem _ _); [reflexivity|]. destruct (String.eqb _ _); [reflexivity|].
  assert (G : forall n, (let* d := get_definition fuel (rb b) (r n) mi in
      match dr_def d with
      | DSimple _ t' _ => Ok (Leaf [] (get_c_type t') (type_begin t') (type_end t'))
      | DEnumerated _ _ l => Ok (Leaf (map e_key l) (Some A_UINT) (Some (NInt 0)) (Some (NInt (Z.of_nat (List.length l) - 1))))
      | _ => Ok (Nested d) end)
    = rmap ren_info (let* d := get_definition fuel b n mi in
      match dr_def d with
      | DSimple _ t' _ => Ok (Leaf [] (get_c_type t') (type_begin t') (type_end t'))
      | DEnumerated _ _ l => Ok (Leaf (map e_key l) (Some A_UINT) (Some (NInt 0)) (Some (NInt (Z.of_nat (List.length l) - 1))))
      | _ => Ok (Nested d) end)).
  { intros n. rewrite get_definition_r. apply rmap_bind. intros [i j [dn c ms|dn c ms|dn c is|dn t' c]] _; cbn [ren_dref dr_def rename_definition rmap]; try reflexivity.
    rewrite (c_type_r r s RN), type_begin_r, type_end_r. reflexivity. }
  destruct t; try apply G. reflexivity.
Qed.

Lemma hand_down_r : forall st mi di k m given, hand_down st mi di k (rm m) given = hand_down st mi di k m given.
Proof. reflexivity. Qed.
Lemma leaf_r : forall m given states c bg en, leaf_entry (rm m) given states c bg en = leaf_entry m given states c bg en.
Proof. intros m given states c bg en. unfold leaf_entry. cbn [rename_member m_type m_key m_comment]. destruct (m_type m); reflexivity. Qed.

Lemma items_of_r : forall fuel b root d wc st, items_of fuel (rb b) root (ren_dref d) wc st = items_of fuel b root d wc st.
Proof.
  induction fuel as [|fuel IH]; intros b root d wc st; [reflexivity|]. cbn [items_of].
  destruct d as [mi di [n c ms|n c ms|n c is|n t c]]; cbn [ren_dref dr_def dr_mod dr_pos rename_definition]; try reflexivity.
  generalize 0%nat. revert st. induction ms as [|m ms IHm]; intros st k; [reflexivity|]. cbn [map].
  change (m_key (rm m)) with (m_key m). change (m_type (rm m)) with (rt (m_type m)). rewrite hand_down_r.
  destruct (hand_down st mi di k m (given_value wc (m_key m))) as [down st1]. rewrite member_info_r.
  destruct (member_info fuel b root (m_type m)) as [info|e|]; [|reflexivity..]. cbn [rmap bind].
  replace (match ren_info info with
    | Nested d' => items_of fuel (rb b) root d' down st1
    | Leaf states c0 bg en => let* e := leaf_entry (rm m) (given_value wc (m_key m)) states c0 bg en in Ok ([e], st1)
    end) with (match info with
    | Nested d' => items_of fuel b root d' down st1
    | Leaf states c0 bg en => let* e := leaf_entry m (given_value wc (m_key m)) states c0 bg en in Ok ([e], st1)
    end).
  2:{ destruct info as [d'|states c0 bg en]; cbn [ren_info]; [symmetry; apply IH|]. rewrite leaf_r. reflexivity. }
  apply bind_ext. intros [es st2]. rewrite IHm. reflexivity.
Qed.

Definition ren_packet (p : packet) : packet := mkpacket (r (pk_name p)) (pk_comment p) (pk_entries p).
Lemma packets_r : forall fuel b mi l st, packets fuel (rb b) mi (map r l) st = rmap (map ren_packet) (packets fuel b mi l st).
Proof.
  intros fuel b mi. induction l as [|n l IH]; intros st; [reflexivity|]. cbn [packets map]. rewrite module_drefs_r.
  replace (map (fun d => (def_name (dr_def d), d)) (map ren_dref (module_drefs b mi)))
    with (map (fun x => (r (fst x), snd x)) (map (fun x => (fst x, ren_dref (snd x))) (map (fun d => (def_name (dr_def d), d)) (module_drefs b mi))))
    by (rewrite !map_map; apply map_ext; intros d; cbn [fst snd ren_dref dr_def]; rewrite def_name_r; reflexivity).
  rewrite (dict_get_r r s RN), dict_get_map. destruct (dict_get n _) as [d|]; [|reflexivity]. cbn [option_map].
  rewrite items_of_r. apply bind_rmap_same. intros [es st1] _. rewrite IH. apply rmap_bind. intros rest _. cbn [rmap map ren_dref dr_def]. unfold ren_packet at 2.
  cbn [pk_name pk_comment pk_entries]. rewrite def_name_r.
  replace (def_comment (rd (dr_def d))) with (def_comment (dr_def d)) by (destruct (dr_def d); reflexivity). reflexivity.
Qed.

Lemma index_r : forall n l i, index_of n i (map (ren_bm r) l) = index_of n i l.
Proof. intros n. induction l as [|m l IH]; intros i; simpl; [reflexivity|]. rewrite IH. reflexivity. Qed.

Lemma cosmos_packets_r : forall fuel b mn msgs, cosmos_packets fuel (rb b) mn (map r msgs) = rmap (map ren_packet) (cosmos_packets fuel b mn msgs).
Proof.
  intros fuel b mn msgs. unfold cosmos_packets, get_module. cbn [ren_bundle b_modules]. rewrite is_nil_map.
  destruct (is_nil (b_modules b)); [reflexivity|]. cbn [bind]. rewrite find_map.
  change (fun a => String.eqb (bm_name (ren_bm r a)) mn) with (fun a => String.eqb (bm_name a) mn).
  replace (match option_map (ren_bm r) (find (fun a => String.eqb (bm_name a) mn) (b_modules b)) with Some bm => map def_name (mod_defs (bm_mod bm)) | None => [] end)
    with (map r (match find (fun a => String.eqb (bm_name a) mn) (b_modules b) with Some bm => map def_name (mod_defs (bm_mod bm)) | None => [] end))
    by (destruct (find _ _) as [bm|]; cbn [option_map ren_bm bm_mod rename mod_defs]; rewrite ?names_r; reflexivity).
  rewrite (set_diff_r r s RN). apply bind_rmap_same. intros _ _. rewrite index_r. destruct (index_of mn 0 (b_modules b)) as [mi|]; [|reflexivity].
  apply packets_r.
Qed.

Lemma packets_names : forall fuel b mi l st ps, packets fuel b mi l st = Ok ps -> map pk_name ps = l.
Proof.
  intros fuel b mi. induction l as [|n l IH]; intros st ps H; cbn [packets] in H; [injection H as <-; reflexivity|].
  destruct (dict_get n _) as [d|] eqn:D; [|discriminate H]. apply bind_ok in H. destruct H as ([es st1] & X & H). apply bind_ok in H. destruct H as (rest & R & H).
  injection H as <-. apply dict_get_In in D. apply in_map_iff in D. destruct D as (d0 & Q & _). injection Q as Qn ->. cbn [map pk_name]. rewrite (IH _ _ R), Qn. reflexivity.
Qed.
Lemma cosmos_packets_names : forall fuel b mn msgs ps, cosmos_packets fuel b mn msgs = Ok ps -> map pk_name ps = msgs.
Proof.
  intros fuel b mn msgs ps H. unfold cosmos_packets in H. apply bind_ok in H. destruct H as (bm & G & H). cbv zeta in H. apply bind_ok in H. destruct H as (u & A & H).
  destruct (index_of mn 0 (b_modules b)) as [mi|] eqn:X; [exact (packets_names _ _ _ _ _ _ H)|].
  injection H as <-. unfold get_module in G. destruct (is_nil (b_modules b)); [discriminate G|]. injection G as <-.
  assert (N : find (fun bm => String.eqb (bm_name bm) mn) (b_modules b) = None).
  { clear - X. revert X. generalize 0%nat. induction (b_modules b) as [|x l IH]; intros i X; [reflexivity|]. cbn [find index_of] in *.
    destruct (String.eqb (bm_name x) mn); [discriminate X|]. exact (IH _ X). }
  rewrite N in A. destruct msgs as [|x l]; [reflexivity|]. discriminate A.
Qed.

Definition rest_of (p : packet) : string := (DQUOTE ++ pk_comment p ++ DQUOTE ++ NL ++ String.concat "" (map entry_text (pk_entries p)))%string.
Lemma text_of_packets : forall t ps, cosmos_text t ps = telemetry_text t (map (fun p => (pk_name p, rest_of p)) ps).
Proof. intros t ps. unfold cosmos_text, telemetry_text. rewrite map_map. reflexivity. Qed.

Lemma cosmos_renamed : forall mn msgs out input fuel fs fs1, run fuel (GenerateCosmos mn msgs out) input fs = (fs1, Ok tt) ->
  exists ps, map fst ps = msgs
    /\ fs1 = folder_append (out ++ ".txt", telemetry_text out ps)%string fs
    /\ run fuel (GenerateCosmos mn (map r msgs) out) (map (rename r) input) fs
       = (folder_append (out ++ ".txt", telemetry_text out (map (fun p => (r (fst p), snd p)) ps))%string fs, Ok tt).
Proof.
  intros mn msgs out input fuel fs fs1 H. cbn [run] in *. rewrite (build_cosmos_r r s RN). destruct (build_from_cosmos_config input) as [b|e|]; [|discriminate H..].
  cbn [with_bundle rmap] in *. unfold generate_cosmos in *. rewrite cosmos_packets_r.
  destruct (cosmos_packets fuel b mn msgs) as [ps|e|] eqn:P; [|discriminate H..]. cbn [bind rmap] in *. injection H as <-.
  exists (map (fun p => (pk_name p, rest_of p)) ps). split; [rewrite map_map; exact (cosmos_packets_names _ _ _ _ _ P)|].
  rewrite !text_of_packets, !map_map. split; reflexivity.
Qed.

Lemma cosmos_renamed_fails : forall mn msgs out input fuel fs, snd (run fuel (GenerateCosmos mn msgs out) input fs) <> Ok tt ->
  run fuel (GenerateCosmos mn (map r msgs) out) (map (rename r) input) fs = run fuel (GenerateCosmos mn msgs out) input fs.
Proof.
  intros mn msgs out input fuel fs H. cbn [run] in *. rewrite (build_cosmos_r r s RN). destruct (build_from_cosmos_config input) as [b|e|]; [|reflexivity..].
  cbn [with_bundle rmap] in *. unfold generate_cosmos in *. rewrite cosmos_packets_r.
  destruct (cosmos_packets fuel b mn msgs) as [ps|e|]; [|reflexivity..]. destruct H. reflexivity.
Qed.
End Renaming.
