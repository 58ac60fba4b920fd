(** * Proofs: comments change nothing but comments *)
From Verif Require Import Base PyNum PyStr Ast Size Processor Bundle Sorter CCommon GenCfs GenC GenBinary GenCosmos Main
  Lib_proofs Spec_Enum Spec_Check Spec_Header Enum_proofs Check_proofs Bundle_proofs Spec_Plain.
Open Scope string_scope.
Open Scope list_scope.

Definition rmap {A B} (f : A -> B) (r : result A) : result B :=
  match r with Ok a => Ok (f a) | Err e => Err e | OutOfFuel => OutOfFuel end.

Lemma rmap_id : forall A (r : result A), rmap (fun a => a) r = r.
Proof. intros A [a|e|]; reflexivity. Qed.
Lemma rmap_bind : forall A B C D (f : A -> B) (g : C -> D) (r : result A) (k : A -> result C) (k' : B -> result D),
  (forall a, r = Ok a -> k' (f a) = rmap g (k a)) -> bind (rmap f r) k' = rmap g (bind r k).
Proof. intros A B C D f g [a|e|] k k' H; simpl; [apply H; reflexivity|reflexivity|reflexivity]. Qed.
Lemma bind_rmap_same : forall A C D (g : C -> D) (r : result A) (k : A -> result C) (k' : A -> result D),
  (forall a, r = Ok a -> k' a = rmap g (k a)) -> bind r k' = rmap g (bind r k).
Proof. intros A C D g [a|e|] k k' H; simpl; [apply H; reflexivity|reflexivity|reflexivity]. Qed.
Lemma bind_ext : forall A B (r : result A) (k k' : A -> result B), (forall a, k a = k' a) -> bind r k = bind r k'.
Proof. intros A B [a|e|] k k' H; simpl; auto. Qed.

Lemma for_each_map : forall A B (f : A -> B) (g : B -> result unit) l, for_each g (map f l) = for_each (fun a => g (f a)) l.
Proof. intros A B f g. induction l as [|a l IH]; simpl; [reflexivity|]. apply bind_ext. intros _. exact IH. Qed.
Lemma for_each_ext : forall A (f g : A -> result unit) l, (forall a, In a l -> f a = g a) -> for_each f l = for_each g l.
Proof.
  intros A f g. induction l as [|a l IH]; intros H; simpl; [reflexivity|]. rewrite (H a (or_introl eq_refl)).
  apply bind_ext. intros _. apply IH. intros b I. apply H. right. exact I.
Qed.
Lemma map_result_map : forall A B C D (f : A -> B) (g : C -> D) (h : A -> result C) (h' : B -> result D) l,
  (forall a, In a l -> h' (f a) = rmap g (h a)) -> map_result h' (map f l) = rmap (map g) (map_result h l).
Proof.
  intros A B C D f g h h'. induction l as [|a l IH]; intros H; [reflexivity|]. cbn [map map_result]. rewrite (H a (or_introl eq_refl)).
  apply rmap_bind. intros c _. rewrite IH by (intros b I; apply H; right; exact I).
  apply rmap_bind. intros cs _. reflexivity.
Qed.
Lemma flat_map_map : forall A B C (f : A -> B) (g : B -> list C) l, flat_map g (map f l) = flat_map (fun a => g (f a)) l.
Proof. intros A B C f g. induction l as [|a l IH]; simpl; [reflexivity|]. rewrite IH. reflexivity. Qed.
Lemma map_flat_map : forall A B C (f : B -> C) (g : A -> list B) l, map f (flat_map g l) = flat_map (fun a => map f (g a)) l.
Proof. intros A B C f g. induction l as [|a l IH]; simpl; [reflexivity|]. rewrite map_app, IH. reflexivity. Qed.
Lemma find_map : forall A B (f : A -> B) (p : B -> bool) l, find p (map f l) = option_map f (find (fun a => p (f a)) l).
Proof. intros A B f p. induction l as [|a l IH]; simpl; [reflexivity|]. destruct (p (f a)); [reflexivity|exact IH]. Qed.
Lemma filter_map : forall A B (f : A -> B) (p : B -> bool) l, filter p (map f l) = map f (filter (fun a => p (f a)) l).
Proof. intros A B f p. induction l as [|a l IH]; simpl; [reflexivity|]. destruct (p (f a)); simpl; rewrite IH; reflexivity. Qed.
Lemma dict_get_map : forall A B (f : A -> B) k l, dict_get k (map (fun x => (fst x, f (snd x))) l) = option_map f (dict_get k l).
Proof.
  intros A B f k. induction l as [|[n a] l IH]; simpl; [reflexivity|]. rewrite IH. destruct (dict_get k l); simpl; [reflexivity|].
  destruct (String.eqb k n); reflexivity.
Qed.

(** ** Clauses *)

Lemma plain_clause_eq : forall c l, plain_clause (WC c l) = WC None (map plain_component l).
Proof. reflexivity. Qed.
Lemma plain_clause_items : forall w, wc_items (plain_clause w) = map plain_component (wc_items w).
Proof. intros [c l]. reflexivity. Qed.
Lemma plain_component_key : forall i, wi_key (plain_component i) = wi_key i.
Proof. intros [k v c]. reflexivity. Qed.
Lemma plain_component_value : forall i, wi_value (plain_component i) = plain_value (wi_value i).
Proof. intros [k v c]. reflexivity. Qed.

Lemma plain_clause_comments : forall w, clause_comments (plain_clause w) = [].
Proof.
  apply clause_ind. intros c l IH. rewrite plain_clause_eq, clause_comments_eq, flat_map_map. cbn [opt_list app].
  induction l as [|[k v cm] l IHl]; [reflexivity|]. cbn [flat_map]. rewrite IHl by (intros k' w' cm' I; apply (IH k' w' cm'); right; exact I).
  cbn. rewrite !app_nil_r. destruct v as [z|f|b|w]; try reflexivity. apply (IH k w cm). left. reflexivity.
Qed.

(** ** Parsing *)

Lemma plain_place : forall l slots,
  place (map plain_item l) (map (option_map plain_item) slots) = rmap (map (option_map plain_item)) (place l slots).
Proof.
  induction l as [|e l IH]; intros slots; [reflexivity|]. cbn [map place]. rewrite map_length.
  change (e_pos (plain_item e)) with (e_pos e). cbv zeta.
  destruct ((0 <=? _) && _)%Z; [|reflexivity]. rewrite nth_error_map.
  destruct (nth_error slots _) as [[x|]|]; simpl; try reflexivity. rewrite <- IH. f_equal.
  generalize (Z.to_nat (if (e_pos e <? 0)%Z then Z.of_nat (length slots) + e_pos e else e_pos e)). clear.
  induction slots as [|s slots IHs]; intros [|n]; simpl; try reflexivity. rewrite IHs. reflexivity.
Qed.

Lemma plain_renumber : forall l i, renumber i (map plain_item l) = map plain_item (renumber i l).
Proof. induction l as [|e l IH]; intros i; simpl; [reflexivity|]. rewrite IH. reflexivity. Qed.

Lemma plain_enumerated : forall l, check_enumerated (map plain_item l) = rmap (map plain_item) (check_enumerated l).
Proof.
  intros l. unfold check_enumerated. rewrite map_map, map_length. change (map (fun x => e_pos (plain_item x)) l) with (map e_pos l).
  cbv zeta. destruct (zsum (map e_pos l) =? 0)%Z; [rewrite plain_renumber; reflexivity|].
  destruct (negb _); [reflexivity|].
  pose proof (plain_place l (repeat None (length l))) as E.
  replace (map (option_map plain_item) (repeat None (length l))) with (repeat (@None enum_item) (length l)) in E
    by (clear; induction (length l) as [|n IH]; simpl; [reflexivity|f_equal; exact IH]).
  rewrite E. apply rmap_bind. intros slots _. apply map_result_map. intros [x|] _; reflexivity.
Qed.

Lemma clean_none : Forall clean (opt_list (@None comment)).
Proof. constructor. Qed.

Lemma plain_process_member : forall m, Forall clean (member_comments m) -> process_member (plain_member m) = process_member m.
Proof.
  intros m H. unfold process_member, member_comments in *. apply Forall_app in H. destruct H as (H1 & H2).
  cbn [m_type m_comment m_with plain_member]. apply bind_ext. intros _.
  rewrite (proj2 (check_comment_opt_ok true (m_comment m)) H1). cbn [check_comment_opt bind].
  destruct (m_with m) as [w|]; [|reflexivity]. cbn [option_map].
  rewrite (proj2 (process_wcomps_ok w) H2), (proj2 (process_wcomps_ok (plain_clause w))); [reflexivity|].
  rewrite plain_clause_comments. constructor.
Qed.

Lemma plain_process_members : forall l, Forall clean (flat_map member_comments l) ->
  for_each process_member (map plain_member l) = for_each process_member l.
Proof.
  intros l H. rewrite for_each_map. apply for_each_ext. intros m I. apply plain_process_member.
  rewrite Forall_flat_map, Forall_forall in H. exact (H m I).
Qed.

Lemma plain_process_definition : forall d, Forall clean (definition_comments d) ->
  process_definition (plain_definition d) = rmap plain_definition (process_definition d).
Proof.
  intros [n c l|n c l|n c l|n t c] H; cbn [plain_definition process_definition check_comment_opt bind definition_comments] in *.
  - apply Forall_app in H. destruct H as (H1 & H2). rewrite (proj2 (check_comment_opt_ok false c) H1), (plain_process_members l H2).
    cbn [bind]. apply bind_rmap_same. reflexivity.
  - apply Forall_app in H. destruct H as (H1 & H2). rewrite (proj2 (check_comment_opt_ok false c) H1), (plain_process_members l H2).
    cbn [bind]. apply bind_rmap_same. reflexivity.
  - apply Forall_app in H. destruct H as (H1 & H2). rewrite (proj2 (check_comment_opt_ok false c) H1). cbn [bind].
    assert (E : for_each process_enum_item l = Ok tt) by (apply process_enum_items_ok; exact H2).
    assert (E' : for_each process_enum_item (map plain_item l) = Ok tt).
    { rewrite for_each_map. apply for_each_ok. apply Forall_forall. reflexivity. }
    rewrite E, E'. cbn [bind]. rewrite plain_enumerated. apply rmap_bind. reflexivity.
  - rewrite (proj2 (check_comment_opt_ok false c) H). cbn [bind]. do 3 (apply bind_rmap_same; intros ? _). reflexivity.
Qed.

Lemma plain_def_name : forall d, def_name (plain_definition d) = def_name d.
Proof. intros []; reflexivity. Qed.
Lemma plain_names : forall l, map def_name (map plain_definition l) = map def_name l.
Proof. intros l. rewrite map_map. apply map_ext. exact plain_def_name. Qed.
Lemma plain_children : forall d, def_children (plain_definition d) = map plain_member (def_children d).
Proof. intros []; reflexivity. Qed.
Lemma plain_seq_children : forall d, seq_children (plain_definition d) = map plain_member (seq_children d).
Proof. intros []; reflexivity. Qed.

Lemma plain_imp_names : forall m, map imp_names (mod_imports (plain m)) = map imp_names (mod_imports m).
Proof. intros m. simpl. rewrite map_map. reflexivity. Qed.

Lemma plain_used_types : forall m, check_used_types_defined (plain m) = check_used_types_defined m.
Proof.
  intros m. unfold check_used_types_defined, defined_types. rewrite plain_imp_names. cbn [plain mod_defs].
  rewrite plain_names, for_each_map. apply for_each_ext. intros d _. rewrite plain_children, for_each_map. reflexivity.
Qed.

Lemma parse_plain : forall m, Forall clean (module_comments m) -> parse_module (plain m) = rmap plain (parse_module m).
Proof.
  intros m H. unfold module_comments in H. rewrite !Forall_app in H. destruct H as (H1 & H2 & H3 & H4).
  unfold parse_module. rewrite (proj2 (check_comment_opt_ok false _) H1), (proj2 (check_comment_opt_ok false _) H3).
  assert (I : for_each process_import (mod_imports m) = Ok tt).
  { apply for_each_ok. rewrite Forall_flat_map in H2. eapply Forall_impl; [|exact H2]. intros i Hi. apply check_comment_opt_ok. exact Hi. }
  assert (I' : for_each process_import (map plain_import (mod_imports m)) = Ok tt).
  { rewrite for_each_map. apply for_each_ok. apply Forall_forall. reflexivity. }
  cbn [plain mod_comment mod_comment_import mod_imports mod_defs mod_name check_comment_opt bind]. rewrite I, I'. cbn [bind].
  rewrite (map_result_map _ _ _ _ plain_definition plain_definition process_definition).
  2:{ intros d Hd. apply plain_process_definition. rewrite Forall_flat_map, Forall_forall in H4. exact (H4 d Hd). }
  apply rmap_bind. intros defs _.
  rewrite <- (plain_used_types (mkmodule (mod_name m) (mod_comment m) (mod_imports m) (mod_comment_import m) defs)).
  apply bind_rmap_same. reflexivity.
Qed.

Lemma processed_members_clean : forall l, for_each process_member l = Ok tt -> Forall clean (flat_map member_comments l).
Proof.
  intros l H. rewrite Forall_flat_map. apply for_each_ok in H. eapply Forall_impl; [|exact H]. intros k P. unfold process_member in P.
  apply bind_ok in P. destruct P as ([] & _ & P). apply bind_ok in P. destruct P as ([] & P1 & P). apply bind_ok in P. destruct P as ([] & P2 & _).
  unfold member_comments. apply Forall_app. split; [apply (check_comment_opt_ok true); exact P1|].
  destruct (m_with k) as [w|]; [apply process_wcomps_ok; exact P2|constructor].
Qed.

Lemma parsed_clean : forall m p, parse_module m = Ok p -> Forall clean (module_comments m).
Proof.
  intros m p H. unfold parse_module in H.
  apply bind_ok in H. destruct H as ([] & H1 & H). apply bind_ok in H. destruct H as ([] & H2 & H).
  apply bind_ok in H. destruct H as ([] & H3 & H). apply bind_ok in H. destruct H as (defs & H4 & _).
  unfold module_comments. rewrite !Forall_app. split; [apply (check_comment_opt_ok false); exact H1|].
  split; [|split; [apply (check_comment_opt_ok false); exact H3|]].
  - rewrite Forall_flat_map. apply for_each_ok in H2. eapply Forall_impl; [|exact H2]. intros i Hi. apply (check_comment_opt_ok false). exact Hi.
  - rewrite Forall_flat_map. apply map_result_ok in H4. apply Forall_forall. intros d Hd.
    destruct (Forall2_in_l _ _ _ _ _ _ H4 Hd) as (d' & _ & P). destruct d as [n c l|n c l|n c l|n t c]; simpl in P.
    + apply bind_ok in P. destruct P as ([] & P1 & P). apply bind_ok in P. destruct P as ([] & P2 & _).
      simpl. apply Forall_app. split; [apply (check_comment_opt_ok false); exact P1|]. apply processed_members_clean. exact P2.
    + apply bind_ok in P. destruct P as ([] & P1 & P). apply bind_ok in P. destruct P as ([] & P2 & _).
      simpl. apply Forall_app. split; [apply (check_comment_opt_ok false); exact P1|]. apply processed_members_clean. exact P2.
    + apply bind_ok in P. destruct P as ([] & P1 & P). apply bind_ok in P. destruct P as ([] & P2 & _).
      simpl. apply Forall_app. split; [apply (check_comment_opt_ok false); exact P1|]. apply process_enum_items_ok in P2. exact P2.
    + apply bind_ok in P. destruct P as ([] & P1 & P). apply bind_ok in P. destruct P as ([] & P2 & _).
      apply (check_comment_opt_ok false). exact P2.
Qed.

Lemma parse_all_plain : forall l, Forall (fun m => Forall clean (module_comments m)) l ->
  parse_modules (map plain l) = rmap (map plain) (parse_modules l).
Proof.
  intros l H. apply map_result_map. intros m I. apply parse_plain. rewrite Forall_forall in H. exact (H m I).
Qed.

(** ** Bundles *)

Definition plain_bm (bm : bmodule) : bmodule := mkbmodule (plain (bm_mod bm)) (bm_imported bm).
Definition plain_bundle (b : bundle) : bundle := mkbundle (map plain_bm (b_modules b)) (b_uses b).

Lemma plain_mod_names : forall l, map mod_name (map plain l) = map mod_name l.
Proof. intros l. rewrite map_map. reflexivity. Qed.
Lemma plain_bm_names : forall l, map bm_name (map plain_bm l) = map bm_name l.
Proof. intros l. rewrite map_map. reflexivity. Qed.
Lemma plain_dependencies : forall m, dependencies (plain m) = dependencies m.
Proof. intros m. unfold dependencies. simpl. rewrite map_map. reflexivity. Qed.
Lemma plain_last_index : forall n l i, last_index_from i n (map plain l) = last_index_from i n l.
Proof. intros n. induction l as [|m l IH]; intros i; simpl; [reflexivity|]. rewrite IH. reflexivity. Qed.
Lemma plain_check_dependencies : forall l, check_dependencies (map plain l) = check_dependencies l.
Proof.
  intros l. unfold check_dependencies. rewrite plain_mod_names. apply for_each_ext. intros n _. unfold last_index. rewrite plain_last_index.
  destruct (last_index_from 0 n l) as [i|]; [|reflexivity]. rewrite nth_error_map. destruct (nth_error l i) as [m|]; simpl; [|reflexivity].
  rewrite plain_dependencies. reflexivity.
Qed.
Lemma plain_imported : forall l i m, imported_of (map plain l) i (plain m) = imported_of l i m.
Proof.
  intros l i m. unfold imported_of, last_index. rewrite plain_last_index, plain_dependencies. simpl.
  destruct (last_index_from 0 (mod_name m) l) as [j|]; [|reflexivity]. destruct (Nat.eqb i j); [|reflexivity].
  apply flat_map_ext. intros n. rewrite plain_last_index. reflexivity.
Qed.
Lemma plain_attach : forall ms l i, attach_imports (map plain ms) i (map plain l) = map plain_bm (attach_imports ms i l).
Proof. intros ms. induction l as [|m l IH]; intros i; simpl; [reflexivity|]. rewrite IH, plain_imported. reflexivity. Qed.
Lemma plain_simple_uses : forall m, parse_for_simple_defs (plain m) = parse_for_simple_defs m.
Proof.
  intros m. unfold parse_for_simple_defs. simpl. rewrite flat_map_map. apply flat_map_ext. intros d.
  rewrite plain_children, flat_map_map. apply flat_map_ext. intros k. simpl. destruct (m_with k); reflexivity.
Qed.
Lemma plain_uses : forall l u, fold_left module_uses (map plain l) u = fold_left module_uses l u.
Proof.
  induction l as [|m l IH]; intros u; simpl; [reflexivity|]. rewrite IH. f_equal. unfold module_uses. rewrite plain_simple_uses. reflexivity.
Qed.
Lemma plain_build : forall l, build (map plain l) = rmap plain_bundle (build l).
Proof.
  intros l. unfold build. cbv zeta. rewrite plain_check_dependencies, plain_uses. apply bind_rmap_same. intros _ _.
  rewrite plain_attach. reflexivity.
Qed.

Lemma plain_all_defs : forall b, all_defs (plain_bundle b) = map plain_definition (all_defs b).
Proof.
  intros b. unfold all_defs, all_modules. simpl. rewrite map_map, !flat_map_map, map_flat_map. reflexivity.
Qed.

Lemma sequences_named_plain : forall l n, sequences_named (map plain_definition l) n = map plain_definition (sequences_named l n).
Proof. intros l n. unfold sequences_named. rewrite filter_map. f_equal. apply filter_ext. intros d. rewrite plain_def_name. reflexivity. Qed.

Lemma plain_check_wcomps : forall seqs w n,
  check_wcomps (map plain_definition seqs) n (plain_clause w) = check_wcomps seqs n w.
Proof.
  intros seqs. induction w as [c l IH] using clause_ind. intros n. rewrite plain_clause_eq, !check_wcomps_eq, sequences_named_plain.
  destruct (sequences_named seqs n) as [|s [|s' r]]; try reflexivity. cbn [map]. unfold check_items. rewrite for_each_map. apply for_each_ext. intros [k v cm] I.
  cbn [plain_component]. rewrite plain_seq_children, map_map. change (map (fun x => m_key (plain_member x)) (seq_children s)) with (map m_key (seq_children s)).
  apply bind_ext. intros _. destruct v as [z|f|b|w]; try reflexivity. cbn [plain_value]. rewrite find_map. simpl.
  destruct (find _ (seq_children s)) as [m|]; simpl; [|reflexivity]. apply (IH k w cm I).
Qed.

Lemma is_sequence_plain : forall d, is_sequence (plain_definition d) = is_sequence d.
Proof. intros []; reflexivity. Qed.

Lemma plain_components_defined : forall l, check_used_components_defined (map plain_definition l) = check_used_components_defined l.
Proof.
  intros l. unfold check_used_components_defined. cbv zeta. rewrite filter_map, (filter_ext _ _ is_sequence_plain), for_each_map.
  apply for_each_ext. intros d _. rewrite plain_seq_children, for_each_map. apply for_each_ext. intros k _. simpl.
  destruct (m_with k) as [w|]; simpl; [apply plain_check_wcomps|reflexivity].
Qed.

Lemma plain_duplicates : forall l seen, check_duplicates seen (map plain_definition l) = check_duplicates seen l.
Proof. induction l as [|d l IH]; intros seen; simpl; [reflexivity|]. rewrite plain_def_name, IH. reflexivity. Qed.

Lemma plain_check_imports : forall b, check_imports (plain_bundle b) = check_imports b.
Proof.
  intros b. unfold check_imports. simpl. rewrite for_each_map. apply for_each_ext. intros bm _. simpl. apply for_each_ext. intros i _.
  rewrite nth_error_map. destruct (nth_error (b_modules b) i) as [im|]; simpl; [|reflexivity]. rewrite plain_names, filter_map, map_map.
  reflexivity.
Qed.

Lemma plain_validate : forall b, validate_bundle (plain_bundle b) = validate_bundle b.
Proof.
  intros b. unfold validate_bundle, check_imported_types_and_components. rewrite plain_check_imports, plain_all_defs, plain_components_defined, plain_duplicates.
  reflexivity.
Qed.

Lemma build_config_plain : forall names input, Forall (fun m => Forall clean (module_comments m)) input ->
  build_from_config names (map plain input) = rmap plain_bundle (build_from_config names input).
Proof.
  intros names input H. unfold build_from_config. rewrite (parse_all_plain _ H). apply rmap_bind. intros ms _.
  unfold validate_unique_module_names. rewrite plain_mod_names. apply bind_rmap_same. intros _ _. rewrite plain_build. apply rmap_bind.
  intros b _. rewrite plain_validate. apply bind_rmap_same. intros _ _. unfold check_missing_modules, module_names. simpl. rewrite plain_bm_names.
  apply bind_rmap_same. reflexivity.
Qed.

Lemma build_cosmos_plain : forall input, Forall (fun m => Forall clean (module_comments m)) input ->
  build_from_cosmos_config (map plain input) = rmap plain_bundle (build_from_cosmos_config input).
Proof.
  intros input H. unfold build_from_cosmos_config. rewrite (parse_all_plain _ H). apply rmap_bind. intros ms _.
  rewrite plain_build. apply rmap_bind. intros b _. rewrite plain_validate. apply bind_rmap_same. reflexivity.
Qed.

(** ** Sorting *)

Lemma plain_all_defined : forall l d, all_defined l (plain_definition d) = all_defined l d.
Proof. intros l d. unfold all_defined. rewrite plain_children. induction (def_children d) as [|m r IH]; simpl; [reflexivity|]. rewrite IH. reflexivity. Qed.

Lemma plain_sort_pass : forall todo done defined, sort_pass (map plain_definition todo) (map plain_definition done) defined =
  let '(a, n, r) := sort_pass todo done defined in (map plain_definition a, n, map plain_definition r).
Proof.
  induction todo as [|d todo IH]; intros done defined; simpl; [reflexivity|]. rewrite plain_all_defined, plain_def_name.
  destruct (all_defined defined d).
  - rewrite <- IH, map_app. reflexivity.
  - rewrite IH. destruct (sort_pass todo done defined) as [[a n] r]. reflexivity.
Qed.

Lemma plain_sort_loop : forall fuel todo done defined, sort_loop fuel (map plain_definition todo) (map plain_definition done) defined =
  rmap (map plain_definition) (sort_loop fuel todo done defined).
Proof.
  induction fuel as [|fuel IH]; intros [|d todo] done defined; try reflexivity.
  cbn [sort_loop map]. change (plain_definition d :: map plain_definition todo) with (map plain_definition (d :: todo)).
  rewrite plain_sort_pass. destruct (sort_pass (d :: todo) done defined) as [[a n] r]. apply IH.
Qed.

Lemma plain_sorted : forall fuel m, sorted_definitions fuel (plain m) = rmap (map plain_definition) (sorted_definitions fuel m).
Proof.
  intros fuel m. unfold sorted_definitions, initially_defined. rewrite plain_imp_names. exact (plain_sort_loop fuel (mod_defs m) [] _).
Qed.

Definition plain_order (st : order_state) : order_state :=
  mkorder (map plain_bm (os_list st)) (os_names st) (os_imports st) (map plain_bm (os_order st)).

Lemma plain_import_list : forall l, import_names (map plain_bm l) = import_names l.
Proof. intros l. unfold import_names. rewrite map_map. f_equal. apply map_ext. intros bm. apply plain_dependencies. Qed.

Lemma remove_nth_map : forall A B (f : A -> B) l n, remove_nth n (map f l) = map f (remove_nth n l).
Proof. intros A B f. induction l as [|a l IH]; intros [|n]; simpl; try reflexivity. rewrite IH. reflexivity. Qed.

Lemma plain_order_pass : forall n i st, order_pass n i (plain_order st) = rmap plain_order (order_pass n i st).
Proof.
  induction n as [|n IH]; intros i st; [reflexivity|]. cbn [order_pass plain_order os_names os_imports os_list os_order].
  destruct (nth_error (os_names st) i) as [name|]; [|reflexivity]. destruct (mem name (os_imports st)); [apply IH|].
  rewrite nth_error_map. destruct (nth_error (os_list st) i) as [m|]; [|reflexivity]. cbn [option_map]. cbv zeta.
  rewrite remove_nth_map, plain_import_list, <- IH. unfold plain_order. simpl. rewrite map_app. reflexivity.
Qed.

Lemma plain_order_loop : forall fuel st, order_loop fuel (plain_order st) = rmap (map plain_bm) (order_loop fuel st).
Proof.
  induction fuel as [|fuel IH]; intros [[|m l] names imports order]; try reflexivity.
  cbn [order_loop os_list plain_order map].
  change (mkorder (plain_bm m :: map plain_bm l) (os_names (mkorder (m :: l) names imports order))
    (os_imports (mkorder (m :: l) names imports order)) (map plain_bm (os_order (mkorder (m :: l) names imports order))))
    with (plain_order (mkorder (m :: l) names imports order)).
  rewrite plain_order_pass. apply rmap_bind. intros st _. apply IH.
Qed.

Lemma plain_ordered : forall fuel b, get_modules_ordered fuel (plain_bundle b) = rmap (map plain_bm) (get_modules_ordered fuel b).
Proof.
  intros fuel b. unfold get_modules_ordered, create_ordered_import_list. simpl. rewrite plain_bm_names, plain_import_list.
  exact (plain_order_loop fuel (mkorder (b_modules b) (map bm_name (b_modules b)) (import_names (b_modules b)) [])).
Qed.

(** ** Sizes *)

Lemma plain_lookup : forall l n, lookup_def (map plain_definition l) n = option_map plain_definition (lookup_def l n).
Proof.
  intros l n. unfold lookup_def. rewrite <- dict_get_map, !map_map. f_equal. apply map_ext. intros d. simpl. rewrite plain_def_name. reflexivity.
Qed.

Definition plain_rtype (r : rtype) : rtype := match r with RDef d => RDef (plain_definition d) | _ => r end.
Lemma plain_resolve : forall l t, resolve (map plain_definition l) t = plain_rtype (resolve l t).
Proof.
  intros l t. unfold resolve. destruct t; try reflexivity; rewrite plain_lookup; destruct (lookup_def l _); reflexivity.
Qed.

Lemma fold_left_map : forall A B C (f : A -> B) (g : C -> B -> C) l a, fold_left g (map f l) a = fold_left (fun x y => g x (f y)) l a.
Proof. intros A B C f g. induction l as [|x l IH]; intros a; simpl; [reflexivity|apply IH]. Qed.

Lemma plain_size : forall fuel l t, member_size fuel (map plain_definition l) t = member_size fuel l t.
Proof.
  induction fuel as [|fuel IH]; intros l t; [reflexivity|]. cbn [member_size]. rewrite plain_resolve.
  destruct (resolve l t) as [n e|n|[n c ms|n c ms|n c is|n t' c]|]; try reflexivity.
  - cbn [plain_rtype plain_definition]. rewrite fold_left_map. generalize (@Ok Z 0%Z). induction ms as [|m ms IHm]; intros a; [reflexivity|].
    cbn [fold_left]. cbn [plain_member m_type]. rewrite IH. apply IHm.
  - cbn [plain_rtype plain_definition]. unfold enum_size. rewrite map_map. reflexivity.
Qed.

(** ** The data the C files are rendered from *)

Definition plain_field (f : cfield) : cfield := mkcfield None (cf_type f) (cf_name f) (cf_bits f) (cf_array f).
Definition plain_decl (d : cdecl) : cdecl :=
  match d with
  | CStruct _ n l => CStruct None n (map plain_field l)
  | CEnum _ n l => CEnum None n (map (fun x => let '(k, p, _) := x in (k, p, None)) l)
  | CUnion _ n v l => CUnion None n v (map (fun x => let '(t, k, _) := x in (t, k, None)) l)
  end.
Definition no_comment (i : cinclude) : bool := match i with IncComment _ => false | _ => true end.
Definition plain_cdata (c : cdata) : cdata :=
  mkcdata (map plain_decl (cd_data c)) (cd_defines c) (filter no_comment (cd_includes c)) (cd_inits c) (cd_predefs c) (cd_init_include c)
    (cd_stdbool c) (cd_stdint c) "" (cd_binary c).

Lemma plain_extend : forall a b, plain_cdata (extend_with_cdata a b) = extend_with_cdata (plain_cdata a) (plain_cdata b).
Proof. intros a b. unfold plain_cdata, extend_with_cdata. simpl. rewrite map_app, filter_app. reflexivity. Qed.

Lemma plain_add_data : forall d a, plain_cdata (add_data d a) = add_data (plain_decl d) (plain_cdata a).
Proof. intros d a. unfold plain_cdata, add_data. simpl. rewrite map_app. reflexivity. Qed.

Lemma plain_map_member : forall fuel l t, map_member fuel (map plain_definition l) t = map_member fuel l t.
Proof.
  intros fuel l t. unfold map_member. cbv zeta. destruct (mem _ _); [reflexivity|]. destruct (String.eqb _ _); [reflexivity|].
  rewrite plain_resolve, plain_size. destruct (resolve l t) as [n e|n|[n c ms|n c ms|n c is|n t' c]|]; reflexivity.
Qed.

Lemma plain_convert_member : forall fuel l sds m, convert_member fuel (map plain_definition l) sds (plain_member m) =
  rmap (fun x => let '(f, sb, si) := x in (plain_field f, sb, si)) (convert_member fuel l sds m).
Proof.
  intros fuel l sds m. unfold convert_member. cbn [plain_member m_type m_key m_comment]. rewrite plain_map_member.
  apply bind_rmap_same. intros cm _. cbv zeta. apply bind_rmap_same. intros [[[bits ct] sb] si] _. rewrite plain_resolve.
  cbn [rmap]. unfold plain_field. cbn. destruct (resolve l (m_type m)) as [n e|n|d|]; reflexivity.
Qed.

Section Generator.
Variable note : string -> asn_type -> result (option string).
Variables wch wch' : string -> member -> result cdata.
Hypothesis wch_plain : forall n m, wch' n (plain_member m) = rmap plain_cdata (wch n m).

Lemma plain_convert_members : forall fuel l sds name ms fields acc,
  convert_members fuel (map plain_definition l) sds wch' name (map plain_member ms) (map plain_field fields) (plain_cdata acc) =
  rmap (fun x => (map plain_field (fst x), plain_cdata (snd x))) (convert_members fuel l sds wch name ms fields acc).
Proof.
  intros fuel l sds name. induction ms as [|m ms IH]; intros fields acc; [reflexivity|]. cbn [map convert_members].
  rewrite plain_convert_member. apply rmap_bind. intros [[f sb] si] _.
  change (set_std sb si (plain_cdata acc)) with (plain_cdata (set_std sb si acc)). cbv zeta.
  cbn [plain_member m_with]. fold (plain_member m).
  replace (map plain_field fields ++ [plain_field f])%list with (map plain_field (fields ++ [f])) by (rewrite map_app; reflexivity).
  destruct (m_with m) as [w|]; cbn [option_map bind].
  - change (mkmember (m_key m) (m_type m) None (option_map plain_clause (m_with m))) with (plain_member m).
    rewrite wch_plain. destruct (wch (c_name name) m) as [c|e|]; cbn [rmap bind]; [|reflexivity|reflexivity].
    rewrite <- plain_extend. apply IH.
  - apply IH.
Qed.

Lemma is_nil_map : forall A B (f : A -> B) l, is_nil (map f l) = is_nil l.
Proof. intros A B f []; reflexivity. Qed.

Lemma plain_convert_definition : forall fuel l sds acc d,
  convert_definition fuel (map plain_definition l) sds note wch' (plain_cdata acc) (plain_definition d) =
  rmap plain_cdata (convert_definition fuel l sds note wch acc d).
Proof.
  intros fuel l sds acc [n c ms|n c ms|n c is|n t c]; cbn [plain_definition convert_definition].
  - unfold convert_sequence. pose proof (plain_convert_members fuel l sds n ms [] empty_cdata) as E.
    change (plain_cdata empty_cdata) with empty_cdata in E. cbn [map] in E. rewrite E. clear E.
    destruct (convert_members fuel l sds wch n ms [] empty_cdata) as [[fs a]|e|]; cbn [rmap bind]; try reflexivity.
    rewrite is_nil_map. cbn [fst snd]. destruct (assert _ _) as [[]|e|]; cbn [rmap bind]; try reflexivity.
    rewrite plain_extend, plain_add_data. reflexivity.
  - cbn [rmap]. rewrite plain_extend. do 2 f_equal. unfold convert_choice, plain_cdata, set_std, add_data. simpl. rewrite !map_map. f_equal.
    induction ms as [|m ms IH]; simpl; [reflexivity|]. rewrite IH. reflexivity.
  - cbn [rmap]. rewrite plain_extend. do 2 f_equal. unfold convert_enumerated, plain_cdata, add_data. simpl. rewrite !map_map. reflexivity.
  - apply bind_rmap_same. intros [s|] _; [|reflexivity]. cbn [rmap]. f_equal. unfold plain_cdata, add_include. simpl. rewrite filter_app. reflexivity.
Qed.

Lemma plain_convert_definitions : forall fuel l sds ds acc,
  convert_definitions fuel (map plain_definition l) sds note wch' (map plain_definition ds) (plain_cdata acc) =
  rmap plain_cdata (convert_definitions fuel l sds note wch ds acc).
Proof.
  intros fuel l sds. induction ds as [|d ds IH]; intros acc; [reflexivity|]. cbn [map convert_definitions].
  rewrite plain_convert_definition. apply rmap_bind. intros a _. apply IH.
Qed.

Lemma plain_simple_defs : forall l, simple_defs (map plain_definition l) = simple_defs l.
Proof. intros l. unfold simple_defs. rewrite flat_map_map. apply flat_map_ext. intros []; reflexivity. Qed.

Lemma plain_simple_list : forall b bm, simple_definition_list (plain_bundle b) (plain_bm bm) = simple_definition_list b bm.
Proof.
  intros b bm. unfold simple_definition_list. simpl. rewrite plain_simple_defs. f_equal. apply flat_map_ext. intros i. rewrite nth_error_map.
  destruct (nth_error (b_modules b) i) as [im|]; simpl; [apply plain_simple_defs|reflexivity].
Qed.

Lemma plain_includes : forall f m, initial_includes f (plain m) = filter no_comment (initial_includes f m).
Proof.
  intros f m. unfold initial_includes. simpl. rewrite filter_app, map_map.
  replace (filter no_comment match mod_comment_import m with Some c => [IncComment (cm_text c)] | None => [] end) with (@nil cinclude)
    by (destruct (mod_comment_import m); reflexivity).
  simpl. induction (mod_imports m) as [|i l IH]; simpl; [reflexivity|]. rewrite <- IH. reflexivity.
Qed.

Lemma plain_module_cdata : forall fuel b bm f,
  module_cdata fuel (plain_bundle b) (plain_bm bm) f note wch' = rmap plain_cdata (module_cdata fuel b bm f note wch).
Proof.
  intros fuel b bm f. unfold module_cdata. cbv zeta. rewrite plain_all_defs, plain_simple_list.
  change (bm_mod (plain_bm bm)) with (plain (bm_mod bm)). rewrite plain_sorted. apply rmap_bind. intros ds _. rewrite plain_includes.
  pose proof (plain_convert_definitions fuel (all_defs b) (simple_definition_list b bm) ds
    (mkcdata [] [] (initial_includes f (bm_mod bm)) [] [] "" false false "" [])) as E.
  unfold plain_cdata at 1 in E. simpl in E. rewrite E. clear E. apply rmap_bind. intros c _. cbn [rmap]. f_equal. simpl.
  destruct (mod_comment (bm_mod bm)) as [cm|]; [|reflexivity]. destruct (String.eqb (cm_text cm) ""); reflexivity.
Qed.
End Generator.
