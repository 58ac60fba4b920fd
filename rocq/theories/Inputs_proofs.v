(** * Proofs: other modules, and the order of modules (C84, C85) *)
From Coq Require Import Permutation Sorted Lia.
From Verif Require Import Base PyNum PyStr Ast Size Processor Bundle Sorter CCommon GenCfs GenC GenBinary GenCosmos Main
  Lib_proofs Str_proofs Spec_Enum Enum_proofs Spec_Num Num_proofs Spec_Check Check_proofs Spec_Grammar Spec_Bundle Bundle_proofs
  Name_proofs Accept_proofs Spec_Gen Gen_proofs Field_proofs Spec_Order Order_proofs Cdata_proofs Run_proofs Note_proofs
  Spec_Files Files_proofs Fuel_proofs Spec_Layout Spec_Cfs Spec_Binary Spec_Runs Runs_proofs Spec_Failures Failures_proofs Spec_Inputs.
Open Scope string_scope.
Open Scope list_scope.

(** ** The conversion looks up only the types it meets *)

Section Lookup.
Variables ds ds' : list definition.
Variable P : string -> Prop.
Hypothesis L : forall n, P n -> lookup_def ds n = lookup_def ds' n.
Hypothesis K : forall n n' c l k, P n -> lookup_def ds n = Some (DSequence n' c l) -> In k l -> P (type_name (m_type k)).

Lemma resolve_cong : forall t, P (type_name t) -> resolve ds t = resolve ds' t.
Proof. intros t H. unfold resolve. rewrite (L _ H). reflexivity. Qed.

Lemma size_cong : forall fuel t, P (type_name t) -> member_size fuel ds t = member_size fuel ds' t.
Proof.
  induction fuel as [|fuel IH]; intros t H; [reflexivity|]. cbn [member_size]. rewrite <- (resolve_cong t H).
  destruct (resolve ds t) as [n e|n|d|] eqn:R; try reflexivity. destruct d as [n c l|n c l|n c l|n t' c]; try reflexivity.
  assert (E : lookup_def ds (type_name t) = Some (DSequence n c l)).
  { unfold resolve in R. destruct t; try discriminate R; match type of R with match ?x with _ => _ end = _ => destruct x; congruence end. }
  assert (F : forall k, In k l -> member_size fuel ds (m_type k) = member_size fuel ds' (m_type k)).
  { intros k J. apply IH. exact (K _ _ _ _ _ H E J). }
  clear - F. generalize (Ok 0%Z). induction l as [|k l I]; intros a; cbn [fold_left]; [reflexivity|].
  rewrite (F k (or_introl eq_refl)). apply I. intros x X. apply F. right. exact X.
Qed.

Lemma map_member_cong : forall fuel t, P (type_name t) -> map_member fuel ds t = map_member fuel ds' t.
Proof. intros fuel t H. unfold map_member. rewrite (resolve_cong t H), (size_cong fuel t H). reflexivity. Qed.

Lemma convert_member_cong : forall fuel sds m, P (type_name (m_type m)) -> convert_member fuel ds sds m = convert_member fuel ds' sds m.
Proof. intros fuel sds m H. unfold convert_member. rewrite (resolve_cong _ H), (map_member_cong fuel _ H). reflexivity. Qed.

Lemma convert_members_cong : forall fuel sds wch wch' name l, (forall k, In k l -> P (type_name (m_type k))) ->
  (forall n k, In k l -> wch n k = wch' n k) -> forall fields acc,
  convert_members fuel ds sds wch name l fields acc = convert_members fuel ds' sds wch' name l fields acc.
Proof.
  intros fuel sds wch wch' name. induction l as [|m l IH]; intros H W fields acc; [reflexivity|]. cbn [convert_members].
  rewrite (convert_member_cong fuel sds m (H m (or_introl eq_refl))). destruct (convert_member fuel ds' sds m) as [[[f sb] si]|e|]; try reflexivity.
  cbn [bind]. rewrite (W (c_name name) m (or_introl eq_refl)).
  match goal with |- bind ?x _ = _ => destruct x as [a|e|]; try reflexivity end. cbn [bind].
  apply IH; intros; [apply H|apply W]; right; assumption.
Qed.

Lemma convert_definitions_cong : forall fuel sds note note' wch wch' l,
  (forall n c ms k, In (DSequence n c ms) l -> In k ms -> P (type_name (m_type k)) /\ forall x, wch x k = wch' x k) ->
  (forall n t c, In (DSimple n t c) l -> note n t = note' n t) -> forall acc,
  convert_definitions fuel ds sds note wch l acc = convert_definitions fuel ds' sds note' wch' l acc.
Proof.
  intros fuel sds note note' wch wch'. induction l as [|d l IH]; intros H N acc; [reflexivity|]. cbn [convert_definitions].
  assert (E : convert_definition fuel ds sds note wch acc d = convert_definition fuel ds' sds note' wch' acc d).
  { destruct d as [n c ms|n c ms|n c ms|n t c]; cbn [convert_definition]; try reflexivity.
    - unfold convert_sequence. rewrite (convert_members_cong fuel sds wch wch' n ms); [reflexivity| |].
      + intros k J. apply (H n c ms k (or_introl eq_refl) J).
      + intros x k J. apply (H n c ms k (or_introl eq_refl) J).
    - rewrite (N n t c (or_introl eq_refl)). reflexivity. }
  rewrite E. destruct (convert_definition fuel ds' sds note' wch' acc d) as [a|e|]; try reflexivity. cbn [bind]. apply IH.
  - intros n c ms k J. apply (H n c ms k). right. exact J.
  - intros n t c J. apply (N n t c). right. exact J.
Qed.

Lemma member_specs_cong : forall fuel l, (forall k, In k l -> P (type_name (m_type k))) -> member_specs fuel ds l = member_specs fuel ds' l.
Proof.
  intros fuel. induction l as [|m l IH]; intros H; [reflexivity|]. cbn [member_specs].
  assert (E : member_specs fuel ds l = member_specs fuel ds' l) by (apply IH; intros k J; apply H; right; exact J).
  rewrite E, (size_cong fuel _ (H m (or_introl eq_refl))). reflexivity.
Qed.

Lemma sequence_specs_cong : forall fuel l, (forall n c ms k, In (DSequence n c ms) l -> In k ms -> P (type_name (m_type k))) ->
  sequence_specs fuel ds l = sequence_specs fuel ds' l.
Proof.
  intros fuel. induction l as [|d l IH]; intros H; [reflexivity|].
  assert (E : sequence_specs fuel ds l = sequence_specs fuel ds' l) by (apply IH; intros n c ms k J; apply (H n c ms k); right; exact J).
  destruct d as [n c ms|n c ms|n c ms|n t c]; cbn [sequence_specs]; try exact E.
  rewrite E, (member_specs_cong fuel ms); [reflexivity|]. intros k J. exact (H n c ms k (or_introl eq_refl) J).
Qed.

Lemma bin_clause_cong : forall fuel e m name k, (forall n c ms k, In (DSequence n c ms) (mod_defs m) -> In k ms -> P (type_name (m_type k))) ->
  bin_with_components fuel e ds m name k = bin_with_components fuel e ds' m name k.
Proof. intros fuel e m name k H. unfold bin_with_components. rewrite (sequence_specs_cong fuel _ H). reflexivity. Qed.
End Lookup.

(** ** The imported simple types *)

Definition module_named (ms : list module) (n : string) : option module := find (fun m => String.eqb n (mod_name m)) ms.

Lemma module_named_iff : forall ms n m, NoDup (map mod_name ms) -> (module_named ms n = Some m <-> In m ms /\ mod_name m = n).
Proof.
  intros ms n m N. unfold module_named. split.
  - intros H. apply find_some in H as (I & E). apply String.eqb_eq in E. auto.
  - intros (I & <-). induction ms as [|x ms IH]; [destruct I|]. cbn [find]. inversion N as [|? ? Nx N']; subst.
    destruct (String.eqb_spec (mod_name m) (mod_name x)) as [E|E].
    + destruct I as [->|I]; [reflexivity|]. exfalso. apply Nx. rewrite <- E. apply in_map. exact I.
    + destruct I as [->|I]; [congruence|]. apply IH; assumption.
Qed.

Lemma simple_list_named : forall ms b i bm, NoDup (map mod_name ms) -> build ms = Ok b -> nth_error (b_modules b) i = Some bm ->
  simple_definition_list b bm
  = simple_defs (mod_defs (bm_mod bm))
    ++ flat_map (fun n => match module_named ms n with Some m => simple_defs (mod_defs m) | None => [] end) (dependencies (bm_mod bm)).
Proof.
  intros ms b i bm N B H. assert (H' := H). rewrite (build_nth _ _ _ B) in H. destruct (nth_error ms i) as [m|] eqn:M; [|discriminate].
  injection H as <-. cbn [bm_mod]. unfold simple_definition_list. cbn [bm_mod bm_imported]. f_equal. unfold imported_of.
  rewrite (last_index_unique _ _ _ N M), Nat.eqb_refl. induction (dependencies m) as [|n l IH]; [reflexivity|].
  cbn [flat_map]. rewrite flat_map_app, IH. f_equal.
  destruct (last_index n ms) as [k|] eqn:Q.
  - destruct (last_index_some _ _ _ Q) as (im & Im & <-). cbn [flat_map]. rewrite app_nil_r, (build_nth _ _ _ B), Im. cbn [option_map bm_mod].
    assert (E : module_named ms (mod_name im) = Some im) by (apply module_named_iff; [exact N|]; split; [eapply nth_error_In; exact Im|reflexivity]).
    rewrite E. reflexivity.
  - destruct (module_named ms n) as [im|] eqn:E; [|reflexivity]. apply module_named_iff in E as (I & <-); [|exact N].
    destruct (last_index_In (mod_name im) ms) as (j & J); [apply in_map; exact I|]. congruence.
Qed.

(** Sorted lists with the same elements. *)
Lemma leb_trans : forall a b c, String.leb a b = true -> String.leb b c = true -> String.leb a c = true.
Proof.
  unfold String.leb. induction a as [|x a IH]; intros [|y b] [|z c]; cbn [String.compare]; try reflexivity; try discriminate.
  unfold Ascii.compare. destruct (N.compare_spec (N_of_ascii x) (N_of_ascii y)) as [E|E|E]; try discriminate;
    destruct (N.compare_spec (N_of_ascii y) (N_of_ascii z)) as [F|F|F]; try discriminate; intros H G;
    destruct (N.compare_spec (N_of_ascii x) (N_of_ascii z)) as [Q|Q|Q]; try reflexivity; try lia.
  exact (IH b c H G).
Qed.
Lemma sorted_unique : forall l l', LocallySorted sle l -> LocallySorted sle l' -> NoDup l -> NoDup l' -> (forall x, In x l <-> In x l') -> l = l'.
Proof.
  assert (T : Relations_1.Transitive sle) by (intros a b c; apply leb_trans).
  intros l l' S S'. apply Sorted_LocallySorted_iff in S, S'. apply Sorted_StronglySorted in S, S'; try exact T. revert l' S'.
  induction S as [|x l S IH F]; intros l' S' N N' H.
  - destruct l' as [|y l']; [reflexivity|]. destruct (proj2 (H y) (or_introl eq_refl)).
  - destruct S' as [|y l' S' F']; [destruct (proj1 (H x) (or_introl eq_refl))|]. rewrite Forall_forall in F, F'.
    assert (E : x = y).
    { destruct (proj1 (H x) (or_introl eq_refl)) as [E|I]; [auto|]. destruct (proj2 (H y) (or_introl eq_refl)) as [E|J]; [auto|].
      apply String.leb_antisym; [exact (F _ J)|exact (F' _ I)]. }
    subst y. f_equal. inversion N as [|? ? A B]; inversion N' as [|? ? A' B']; subst. apply IH; auto.
    intros z. split; intros Z.
    + destruct (proj1 (H z) (or_intror Z)) as [->|Q]; [contradiction|exact Q].
    + destruct (proj2 (H z) (or_intror Z)) as [->|Q]; [contradiction|exact Q].
Qed.

(** ** A bundle inside another *)

Section Inside.
Variables (names names' : list string) (input input' : list module) (b b' : bundle).
Hypothesis C : config names input b.
Hypothesis C' : config names' input' b'.
Hypothesis I : incl input input'.

Lemma inside_modules : incl (all_modules b) (all_modules b').
Proof.
  destruct C as (_ & B), C' as (_ & B').
  destruct (build_from_config_inv _ _ _ B) as (ms & Hp & _ & -> & _). destruct (build_from_config_inv _ _ _ B') as (ms' & Hp' & _ & -> & _).
  apply map_result_ok in Hp, Hp'. intros m J. destruct (Forall2_in_r _ _ _ _ _ _ Hp J) as (x & X & Q).
  destruct (Forall2_in_l _ _ _ _ _ _ Hp' (I x X)) as (y & Y & Q'). rewrite Q in Q'. injection Q' as ->. exact Y.
Qed.
Lemma inside_defs : incl (all_defs b) (all_defs b').
Proof. intros d J. unfold all_defs in *. apply in_flat_map in J as (m & M & J). apply in_flat_map. exists m. split; [apply inside_modules, M|exact J]. Qed.

Definition met (n : string) : Prop := In n (map def_name (all_defs b)) \/ ~ In n (map def_name (all_defs b')).
Lemma lookup_inside : forall n, met n -> lookup_def (all_defs b) n = lookup_def (all_defs b') n.
Proof.
  assert (N' := proj2 (proj2 (accepted_same _ _ (config_accepted _ _ _ C')))).
  assert (N := proj2 (proj2 (accepted_same _ _ (config_accepted _ _ _ C)))).
  intros n [H|H].
  - apply in_map_iff in H as (d & <- & J). rewrite (lookup_unique _ _ N J), (lookup_unique _ _ N' (inside_defs _ J)). reflexivity.
  - rewrite (proj2 (lookup_none _ _) H). apply lookup_none. intros J. apply H. apply in_map_iff in J as (d & <- & J). apply in_map, inside_defs, J.
Qed.
Lemma members_met : forall n c l k, In (DSequence n c l) (all_defs b) -> In k l -> met (type_name (m_type k)).
Proof.
  intros n c l k J Kl. apply in_all_defs in J as (bm & Hbm & J).
  destruct (accepted_member _ _ (DSequence n c l) k (proj1 C) (config_accepted _ _ _ C) ltac:(apply in_all_defs; eauto) Kl) as (_ & Ok & _ & Nn).
  destruct (element (m_type k)) as [r|r| | |s len|len t|x] eqn:E.
  7: { left. rewrite (element_name _ _ E).
    destruct (config_used_type _ _ _ bm _ k x C Hbm J Kl E) as [H|(i & im & _ & Im & H)]; apply in_map_iff in H as (d & <- & H); apply in_map, in_all_defs;
      [eauto|exists im; split; [eapply nth_error_In; exact Im|exact H]]. }
  all: right; apply lookup_none; apply lookup_keyword; [intros d D; apply (accepted_capital _ _ d (proj1 C') (config_accepted _ _ _ C') D)|exact Ok|
    intros (x & X); congruence|rewrite E; exact Nn].
Qed.

Lemma met_closed : forall n n' c l k, met n -> lookup_def (all_defs b) n = Some (DSequence n' c l) -> In k l -> met (type_name (m_type k)).
Proof. intros n n' c l k _ H J. apply lookup_In in H as (D & _). exact (members_met _ _ _ _ D J). Qed.

Section One.
Variables (bm bm' : bmodule).
Hypothesis Hbm : In bm (b_modules b).
Hypothesis Hbm' : In bm' (b_modules b').
Hypothesis E : bm_mod bm = bm_mod bm'.

Lemma inside_simple_list : simple_definition_list b bm = simple_definition_list b' bm'.
Proof.
  destruct (build_from_config_inv _ _ _ (proj2 C)) as (ms & _ & B & A & N & _).
  destruct (build_from_config_inv _ _ _ (proj2 C')) as (ms' & _ & B' & A' & N' & _).
  assert (Im := inside_modules). rewrite A, A' in Im.
  destruct (In_nth_error _ _ Hbm) as (i & Hi). destruct (In_nth_error _ _ Hbm') as (i' & Hi').
  rewrite (simple_list_named ms b i bm N B Hi), (simple_list_named ms' b' i' bm' N' B' Hi'), E. f_equal.
  assert (F : forall n, In n (dependencies (bm_mod bm)) -> module_named ms n = module_named ms' n).
  { intros n J. unfold dependencies in J. apply in_map_iff in J as (it & <- & J).
    destruct (config_imported _ _ _ bm it C Hbm J) as (j & im & _ & Hj & <- & _).
    assert (M : In (bm_mod im) ms) by (rewrite <- A; unfold all_modules; apply in_map; eapply nth_error_In; exact Hj).
    rewrite (proj2 (module_named_iff ms (bm_name im) (bm_mod im) N)), (proj2 (module_named_iff ms' (bm_name im) (bm_mod im) N')); auto. }
  rewrite <- E. induction (dependencies (bm_mod bm)) as [|n l IH]; [reflexivity|]. cbn [flat_map].
  rewrite (F n (or_introl eq_refl)), IH; [reflexivity|]. intros x X. apply F. right. exact X.
Qed.

Lemma inside_note : forall n t, (forall u, In u input' -> uses_type u n -> In u input) -> cfs_note b n t = cfs_note b' n t.
Proof.
  intros n t H.
  destruct (note_text _ _ _ n t (proj1 C) (proj2 C)) as [(U & ->)|(us & Ne & Nd & So & Iff & ->)];
  destruct (note_text _ _ _ n t (proj1 C') (proj2 C')) as [(U' & ->)|(us' & Ne' & Nd' & So' & Iff' & ->)]; [reflexivity| | |].
  - destruct us' as [|x us']; [congruence|]. destruct (proj1 (Iff' x) (or_introl eq_refl)) as (m & M & _ & T). destruct (U m (H m M T) T).
  - destruct us as [|x us]; [congruence|]. destruct (proj1 (Iff x) (or_introl eq_refl)) as (m & M & _ & T). destruct (U' m (I m M) T).
  - assert (us = us') as ->; [|reflexivity]. apply sorted_unique; auto. intros x. rewrite Iff, Iff'. split; intros (m & M & Q & T); exists m; auto.
Qed.

Lemma inside_cdata : forall fuel inc note note' wch wch',
  (forall n t c, In (DSimple n t c) (mod_defs (bm_mod bm)) -> note n t = note' n t) -> (forall x k, wch x k = wch' x k) ->
  module_cdata fuel b bm inc note wch = module_cdata fuel b' bm' inc note' wch'.
Proof.
  intros fuel inc note note' wch wch' N W. unfold module_cdata. rewrite <- E, <- inside_simple_list.
  destruct (sorted_definitions fuel (bm_mod bm)) as [sorted|e|] eqn:S; try reflexivity. cbn [bind].
  assert (P := sorted_perm _ _ _ S).
  rewrite (convert_definitions_cong (all_defs b) (all_defs b') met lookup_inside met_closed fuel _ note note' wch wch' sorted); [reflexivity| |].
  - intros n c l k J Kl. split; [|intros x; apply W]. apply (members_met n c l k); [|exact Kl]. apply in_all_defs. exists bm.
    split; [exact Hbm|]. eapply Permutation_in; [|exact J]. exact P.
  - intros n t c J. apply (N n t c). eapply Permutation_in; [|exact J]. exact P.
Qed.

Lemma inside_files : forall fuel cmd cmd', same_command cmd cmd' ->
  match cmd with GenerateCfs _ => forall n t c u, In (DSimple n t c) (mod_defs (bm_mod bm)) -> In u input' -> uses_type u n -> In u input | _ => True end ->
  module_files fuel cmd b bm = module_files fuel cmd' b' bm'.
Proof.
  intros fuel cmd cmd' S H. assert (En : bm_name bm = bm_name bm') by (unfold bm_name; rewrite E; reflexivity).
  destruct cmd as [m0 l0 t0|l0|l0|l0 e0], cmd' as [m1 l1 t1|l1|l1|l1 e1]; cbn [same_command] in S; try contradiction; cbn [module_files]; [reflexivity|..].
  - unfold cfs_module, cfs_cdata. rewrite (inside_cdata fuel _ (cfs_note b) (cfs_note b') _ cfs_with_components); [rewrite En; reflexivity| |reflexivity].
    intros n t c J. apply inside_note. intros u U T. exact (H n t c u J U T).
  - unfold c_module, c_cdata. rewrite <- En. rewrite (inside_cdata fuel _ c_note c_note _ _ (fun _ _ _ _ => eq_refl) (fun _ _ => eq_refl)). reflexivity.
  - subst e1. unfold bin_module, bin_cdata. rewrite <- En, <- E.
    rewrite (inside_cdata fuel _ bin_note bin_note _ (bin_with_components fuel e0 (all_defs b') (bm_mod bm))); [reflexivity|reflexivity|].
    intros x k. apply (bin_clause_cong _ _ met lookup_inside met_closed). intros n c ms q J Q. apply (members_met n c ms q); [|exact Q].
    apply in_all_defs. eauto.
Qed.
End One.
End Inside.

(** ** Whole runs *)

Lemma run_contents : forall names cmd input fuel fs fs1, config_command names cmd -> Forall (fun m => grammatical m = true) input ->
  run fuel cmd input fs = (fs1, Ok tt) ->
  exists b files, config names input b /\ fs1 = folder_write_all files fs /\ NoDup (map fst files)
    /\ (forall bm, In bm (b_modules b) -> exists fl, module_files fuel cmd b bm = Ok fl)
    /\ forall x, In x files <-> exists bm fl, In bm (b_modules b) /\ module_files fuel cmd b bm = Ok fl /\ In x fl.
Proof.
  intros names cmd input fuel fs fs1 Hc Hg R. rewrite (run_config names) in R by exact Hc.
  destruct (build_from_config names input) as [b|e|] eqn:B; [|discriminate..].
  apply write_outcome_ok in R as (files & G & ->). exists b, files. split; [split; assumption|]. split; [reflexivity|].
  assert (N : NoDup (map fst files)).
  { apply (files_nodup names input b fuel files (Ok tt) Hg B). rewrite <- G. destruct Hc as [->|[->|(e & ->)]]; unfold generation; [left|right; left|right; right; exists e]; reflexivity. }
  split; [exact N|]. unfold generate_modules in G. destruct (get_modules_ordered fuel b) as [l|e|] eqn:O; [|discriminate..].
  destruct (order_sound _ _ _ _ _ B O) as (P & _). split.
  - intros bm H. eapply for_modules_all; [exact G|]. eapply Permutation_in; [apply Permutation_sym, P|exact H].
  - apply for_modules_ok in G as (fss & M & ->). cbn [app]. apply map_result_ok in M. intros x. rewrite in_concat. split.
    + intros (fl & F & X). destruct (Forall2_in_r _ _ _ _ _ _ M F) as (bm & H & Q). exists bm, fl. split; [|auto]. eapply Permutation_in; [exact P|exact H].
    + intros (bm & fl & H & Q & X). destruct (Forall2_in_l _ _ _ _ _ _ M (Permutation_in _ (Permutation_sym P) H)) as (fl' & F & Q').
      exists fl'. split; [exact F|]. congruence.
Qed.

Lemma contents_run : forall names cmd input b fuel, config_command names cmd -> config names input b -> acyclic (imports_from input) ->
  (length input <= fuel)%nat -> (forall bm, In bm (b_modules b) -> exists fl, module_files fuel cmd b bm = Ok fl) ->
  forall fs, snd (run fuel cmd input fs) = Ok tt.
Proof.
  intros names cmd input b fuel Hc (Hg & B) A F M fs. rewrite (run_config names) by exact Hc. rewrite B.
  destruct (modules_ordered _ _ _ fuel B A F) as (l & O & P & _). unfold generate_modules. rewrite O.
  assert (Q : exists fss, map_result (module_files fuel cmd b) l = Ok fss).
  { assert (Hl : forall bm, In bm l -> exists fl, module_files fuel cmd b bm = Ok fl) by (intros bm J; apply M; eapply Permutation_in; [exact P|exact J]).
    clear - Hl. induction l as [|bm l IH]; [exists []; reflexivity|]. cbn [map_result]. destruct (Hl bm (or_introl eq_refl)) as (fl & ->).
    destruct IH as (fss & ->); [intros x X; apply Hl; right; exact X|]. exists (fl :: fss). reflexivity. }
  destruct Q as (fss & Q). rewrite (proj2 (for_modules_ok _ _ [] (concat fss))); [reflexivity|]. exists fss. auto.
Qed.

Lemma module_bmodule : forall names input b m, config names input b -> In m input ->
  exists bm, In bm (b_modules b) /\ parse_module m = Ok (bm_mod bm).
Proof.
  intros names input b m (Hg & B) H. destruct (build_from_config_inv _ _ _ B) as (ms & Hp & _ & <- & _). apply map_result_ok in Hp.
  destruct (Forall2_in_l _ _ _ _ _ _ Hp H) as (m' & H' & Q). unfold all_modules in H'. apply in_map_iff in H' as (bm & <- & H'). eauto.
Qed.
Lemma bmodule_module : forall names input b bm, config names input b -> In bm (b_modules b) ->
  exists m, In m input /\ parse_module m = Ok (bm_mod bm).
Proof.
  intros names input b bm (Hg & B) H. destruct (build_from_config_inv _ _ _ B) as (ms & Hp & _ & A & _). apply map_result_ok in Hp.
  rewrite <- A in Hp. destruct (Forall2_in_r _ _ _ _ _ _ Hp (in_map bm_mod _ _ H)) as (m & M & Q). eauto.
Qed.

(** The modules of the smaller bundle in the larger one. *)
Lemma inside_module : forall names names' input input' b b' m bm, config names input b -> config names' input' b' ->
  In m input' -> parse_module m = Ok (bm_mod bm) -> exists bm', In bm' (b_modules b') /\ bm_mod bm = bm_mod bm'.
Proof.
  intros names names' input input' b b' m bm C C' H Q. destruct (module_bmodule _ _ _ m C' H) as (bm' & H' & Q'). exists bm'. split; [exact H'|]. congruence.
Qed.

Lemma inside_equal : forall names names' cmd cmd' input input' b b' m bm bm' fuel, config names input b -> config names' input' b' ->
  same_command cmd cmd' -> incl input input' -> notes_kept cmd m input input' -> In m input -> parse_module m = Ok (bm_mod bm) ->
  In bm (b_modules b) -> In bm' (b_modules b') -> bm_mod bm = bm_mod bm' -> module_files fuel cmd b bm = module_files fuel cmd' b' bm'.
Proof.
  intros names names' cmd cmd' input input' b b' m bm bm' fuel C C' S I Pr M Q H H' E.
  apply (inside_files names names' input input' b b' C C' I bm bm' H H' E fuel cmd cmd' S).
  unfold notes_kept in Pr. destruct cmd; auto. intros n t c u J U T. eapply Pr; [|exact U|exact T].
  destruct (parse_module_same _ _ Q) as (_ & _ & _ & F). apply (same_simple _ _ n t c F). exact J.
Qed.

Theorem others_same : forall names names' cmd cmd' input input' fuel fuel' fs fs' fs1 fs2 m f,
  config_command names cmd -> config_command names' cmd' -> same_command cmd cmd' ->
  Forall (fun m => grammatical m = true) input' -> incl input input' ->
  run fuel cmd input fs = (fs1, Ok tt) -> run fuel' cmd' input' fs' = (fs2, Ok tt) ->
  In m input -> file_of cmd m f -> notes_kept cmd m input input' ->
  exists text, folder_get fs1 f = Some text /\ folder_get fs2 f = Some text.
Proof.
  intros names names' cmd cmd' input input' fuel fuel' fs fs' fs1 fs2 m f Hc Hc' S G' I R R' M F Pr.
  assert (G : Forall (fun m => grammatical m = true) input).
  { apply Forall_forall. rewrite Forall_forall in G'. intros x X. apply G', I, X. }
  assert (U := run_more fuel (Nat.max fuel fuel') cmd input fs (Nat.le_max_l _ _)).
  assert (U' := run_more fuel' (Nat.max fuel fuel') cmd' input' fs' (Nat.le_max_r _ _)).
  rewrite R in U. rewrite R' in U'. specialize (U ltac:(discriminate)). specialize (U' ltac:(discriminate)).
  revert U U'. generalize (Nat.max fuel fuel') as n. intros n U U'. clear R R' fuel fuel'.
  destruct (run_contents _ _ _ _ _ _ Hc G U) as (b & files & C & -> & N & _ & X).
  destruct (run_contents _ _ _ _ _ _ Hc' G' U') as (b' & files' & C' & -> & N' & All' & X').
  destruct (module_bmodule _ _ _ m C M) as (bm & Hbm & Q). destruct (module_bmodule _ _ _ m C' (I m M)) as (bm' & Hbm' & Q').
  assert (E : bm_mod bm = bm_mod bm') by congruence.
  assert (Eq := inside_equal names names' cmd cmd' input input' b b' m bm bm' n C C' S I Pr M Q Hbm Hbm' E).
  destruct (All' bm' Hbm') as (fl & Fl). rewrite Fl in Eq.
  assert (J : In f (map fst fl)).
  { apply (one_files names input cmd G Hc b (proj2 C) bm m Hbm (parse_module_same _ _ Q) n fl Eq). exact F. }
  apply in_map_iff in J as ((f' & text) & <- & J). exists text. cbn [fst].
  rewrite !folder_get_all.
  rewrite (dict_get_NoDup _ f' text files N) by (apply X; exists bm, fl; auto).
  rewrite (dict_get_NoDup _ f' text files' N') by (apply X'; exists bm', fl; auto). auto.
Qed.

(** The smaller input is processed if the larger one is. *)
Lemma part_defined : forall input n c l k x, Forall module_valid input -> imports_resolve input -> In (DSequence n c l) (definitions input) -> In k l ->
  element (m_type k) = TName x -> exists d, In d (definitions input) /\ def_name d = x.
Proof.
  intros input n c l k x T Im H J E. apply in_flat_map in H as (m & M & H).
  rewrite Forall_forall in T. destruct (T m M) as (_ & _ & D). destruct (D _ k x H J E) as [Q|Q].
  - unfold imported_names in Q. apply in_concat in Q as (xs & Xs & Q). apply in_map_iff in Xs as (it & <- & It).
    destruct (Im m it M It) as (im & Imm & _ & In_). apply In_ in Q. apply in_map_iff in Q as (d & <- & Q).
    exists d. split; [apply in_flat_map; eauto|reflexivity].
  - apply in_map_iff in Q as (d & <- & Q). exists d. split; [apply in_flat_map; eauto|reflexivity].
Qed.
Lemma definitions_incl : forall input input', incl input input' -> incl (definitions input) (definitions input').
Proof. intros input input' I d H. apply in_flat_map in H as (m & M & H). apply in_flat_map. exists m. auto. Qed.
Lemma nodup_def : forall ds d d', NoDup (map def_name ds) -> In d ds -> In d' ds -> def_name d = def_name d' -> d = d'.
Proof. intros ds d d' N H H' E. assert (A := lookup_unique _ _ N H). assert (B := lookup_unique _ _ N H'). rewrite E in A. congruence. Qed.

Lemma acyclic_incl : forall input input', incl input input' -> acyclic (imports_from input') -> acyclic (imports_from input).
Proof.
  intros input input' I A (x & X). apply A. exists x. revert X. generalize x at 2 4. intros y X.
  induction X as [x y (m & it & M & H)|x y z X1 I1 X2 I2].
  - apply Relation_Operators.t_step. exists m, it. split; [apply I, M|exact H].
  - eapply Relation_Operators.t_trans; eassumption.
Qed.

Lemma processable_inside : forall names names' input input', incl input input' -> processable names' input' -> bundle_valid names input ->
  processable names input.
Proof.
  intros names names' input input' I P V. split; [exact V| | |].
  - eapply acyclic_incl; [exact I|]. exact (pr_imports _ _ P).
  - intros m M. apply (pr_types _ _ P), I, M.
  - intros n c l k H J. assert (Inc := definitions_incl _ _ I). assert (N := bv_names _ _ (pr_valid _ _ P)).
    destruct (pr_members _ _ P n c l k (Inc _ H) J) as [E|s x E|E D|x t' c' E Q D|x d E Q Eq S].
    + apply has_boolean, E.
    + eapply has_string, E.
    + apply has_number; assumption.
    + destruct (part_defined _ _ _ _ _ x (bv_modules _ _ V) (bv_imports _ _ V) H J E) as (d & Hd & Ed).
      assert (d = DSimple x t' c') as -> by (apply (nodup_def _ _ _ N (Inc _ Hd) Q); exact Ed). eapply has_simple; eassumption.
    + destruct (part_defined _ _ _ _ _ x (bv_modules _ _ V) (bv_imports _ _ V) H J E) as (d' & Hd & Ed).
      assert (d' = d) as -> by (apply (nodup_def _ _ _ N (Inc _ Hd) Q); congruence). eapply has_other; eassumption.
Qed.

(** A part that imports nothing from the rest is as valid as the whole. *)
Lemma part_names : forall input input', incl input input' -> NoDup (map mod_name input) -> NoDup (map def_name (definitions input')) ->
  NoDup (map def_name (definitions input)).
Proof.
  intros input input' I N D. unfold definitions in *. rewrite flat_map_concat_map, concat_map, map_map, <- flat_map_concat_map in *.
  induction input as [|m input IH]; [constructor|]. cbn [flat_map]. inversion N as [|? ? A N']; subst.
  assert (M : In m input') by (apply I; left; reflexivity). destruct (In_nth_error _ _ M) as (i & Hi).
  apply NoDup_app_iff. split; [|split].
  - clear - D M. induction input' as [|x l IH]; [destruct M|]. cbn [flat_map] in D. apply NoDup_app_iff in D as (D1 & D2 & _).
    destruct M as [->|M]; auto.
  - apply IH; [intros x X; apply I; right; exact X|exact N'].
  - intros x X Y. apply in_flat_map in Y as (m' & M' & Y). destruct (In_nth_error input' m') as (j & Hj); [apply I; right; exact M'|].
    assert (E : i = j) by (eapply NoDup_flat_map_inj; [exact D|exact Hi|exact Hj|exact X|exact Y]). subst j. apply A.
    assert (m = m') as -> by congruence. apply in_map, M'.
Qed.

Lemma part_valid : forall input input', self_contained input input' ->
  Forall module_valid input' -> clauses_valid (definitions input') -> NoDup (map def_name (definitions input')) ->
  Forall module_valid input /\ imports_resolve input /\ clauses_valid (definitions input) /\ NoDup (map def_name (definitions input)).
Proof.
  intros input input' [I N Im] V C D. assert (Inc := definitions_incl _ _ I).
  assert (V' : Forall module_valid input) by (rewrite Forall_forall in *; auto).
  split; [exact V'|]. split; [exact Im|]. split; [|eapply part_names; eassumption].
  assert (K : forall t w, clause_valid (definitions input') t w ->
    (forall x, element t = TName x -> exists d, In d (definitions input) /\ def_name d = x) -> clause_valid (definitions input) t w).
  { fix IH 3. intros t w [t0 n c ms cm l E H F|t0 w0 H] Def; [|apply clause_on_builtin; exact H].
    destruct (Def n E) as (d & Hd & Ed). assert (d = DSequence n c ms) as -> by (apply (nodup_def _ _ _ D (Inc _ Hd) H); exact Ed).
    eapply clause_on_sequence; [exact E|exact Hd|]. intros k v kc J. destruct (F k v kc J) as (x & X & Q). exists x. split; [exact X|].
    intros w' W. apply IH; [apply Q; exact W|]. intros y Y. destruct X as (p & q & -> & _).
    eapply part_defined; [exact V'|exact Im|exact Hd|apply in_elt|exact Y]. }
  intros n c ms k w H J W. apply K; [exact (C n c ms k w (Inc _ H) J W)|]. intros x E. eapply part_defined; eassumption.
Qed.

Theorem fewer_succeeds : forall names names' cmd cmd' input input' fuel' fs',
  config_command names cmd -> config_command names' cmd' -> same_command cmd cmd' ->
  Forall (fun m => grammatical m = true) input' -> incl input input' -> bundle_valid names input ->
  snd (run fuel' cmd' input' fs') = Ok tt -> exists F, forall fuel fs, (F <= fuel)%nat -> snd (run fuel cmd input fs) = Ok tt.
Proof.
  intros names names' cmd cmd' input input' fuel' fs' Hc Hc' S G' I V R.
  assert (G : Forall (fun m => grammatical m = true) input).
  { apply Forall_forall. rewrite Forall_forall in G'. intros x X. apply G', I, X. }
  assert (P := proj1 (run_needs names' input' G' cmd' fuel' fs' Hc' R)).
  assert (P0 := processable_inside _ _ _ _ I P V).
  destruct (run fuel' cmd' input' fs') as [fs2 r] eqn:R'. cbn [snd] in R. subst r.
  destruct (proj2 (bundle_accepted_iff names input G) V) as (b & B).
  assert (Files : (forall m, notes_kept cmd m input input') -> exists F, forall fuel fs, (F <= fuel)%nat -> snd (run fuel cmd input fs) = Ok tt).
  { intros Pr. exists (Nat.max fuel' (length input)). intros fuel fs L.
    assert (U := run_more fuel' fuel cmd' input' fs' ltac:(lia)). rewrite R' in U. specialize (U ltac:(discriminate)).
    destruct (run_contents _ _ _ _ _ _ Hc' G' U) as (b' & files' & C' & _ & _ & All' & _).
    assert (C : config names input b) by (split; assumption).
    apply (contents_run names cmd input b fuel Hc C (pr_imports _ _ P0)); [lia|]. intros bm Hbm.
    destruct (bmodule_module _ _ _ bm C Hbm) as (m & M & Q). destruct (inside_module _ _ _ _ _ _ m bm C C' (I m M) Q) as (bm' & Hbm' & E).
    rewrite (inside_equal names names' cmd cmd' input input' b b' m bm bm' fuel C C' S I (Pr m) M Q Hbm Hbm' E). apply All', Hbm'. }
  destruct Hc as [->|[->|(e & ->)]].
  - destruct Hc' as [->|[->|(e & ->)]]; cbn [same_command] in S; try contradiction.
    exists (Datatypes.S (length input + length (definitions input))). intros fuel fs L.
    apply (cfs_run_iff names input G fs); [exact P0| |exact L].
    assert (X := proj2 (proj1 (cfs_run_iff names' input' G' fs') fuel' ltac:(rewrite R'; reflexivity))).
    assert (Inc := definitions_incl _ _ I). split.
    + intros n c l k w H. apply (pr_headers _ X n c l k w), Inc, H.
    + intros n t c m H M. apply (pr_sizes _ X n t c m); [apply Inc, H|apply I, M].
  - apply Files. intros m. exact Logic.I.
  - apply Files. intros m. exact Logic.I.
Qed.

Theorem part_succeeds : forall names names' cmd cmd' input input' fuel' fs',
  config_command names cmd -> config_command names' cmd' -> same_command cmd cmd' ->
  Forall (fun m => grammatical m = true) input' -> self_contained input input' -> NoDup names -> same_names names (map mod_name input) ->
  snd (run fuel' cmd' input' fs') = Ok tt -> exists F, forall fuel fs, (F <= fuel)%nat -> snd (run fuel cmd input fs) = Ok tt.
Proof.
  intros names names' cmd cmd' input input' fuel' fs' Hc Hc' S G' Sc Nn Sn R.
  assert (V := pr_valid _ _ (proj1 (run_needs names' input' G' cmd' fuel' fs' Hc' R))).
  destruct (part_valid _ _ Sc (bv_modules _ _ V) (bv_clauses _ _ V) (bv_names _ _ V)) as (V1 & V2 & V3 & V4).
  apply (fewer_succeeds names names' cmd cmd' input input' fuel' fs'); auto; [apply Sc|]. constructor; auto. apply Sc.
Qed.

(** ** The order of the modules *)

Lemma clause_valid_incl : forall ds ds', incl ds ds' -> forall t w, clause_valid ds t w -> clause_valid ds' t w.
Proof.
  intros ds ds' I. fix IH 3. intros t w [t0 n c ms cm l E H F|t0 w0 H]; [|apply clause_on_builtin; exact H].
  eapply clause_on_sequence; [exact E|apply I; exact H|]. intros k v kc J. destruct (F k v kc J) as (x & X & K). exists x. split; [exact X|].
  intros w' W. apply IH. apply K. exact W.
Qed.

Lemma bundle_valid_perm : forall names names' input input', Permutation names names' -> Permutation input input' ->
  bundle_valid names input -> bundle_valid names' input'.
Proof.
  intros names names' input input' Pn P [V1 V2 V3 (V4 & V4') V5 V6 V7].
  assert (I : incl input input') by (intros x; apply Permutation_in, P).
  assert (J : incl input' input) by (intros x; apply Permutation_in, Permutation_sym, P).
  assert (D := definitions_incl _ _ I). assert (D' := definitions_incl _ _ J).
  assert (Pm := Permutation_map mod_name P). split.
  - rewrite Forall_forall in *. auto.
  - apply (Permutation_NoDup Pm V2).
  - apply (Permutation_NoDup Pn V3).
  - split; intros x X.
    + apply (Permutation_in _ Pm), V4, (Permutation_in _ (Permutation_sym Pn)), X.
    + apply (Permutation_in _ Pn), V4', (Permutation_in _ (Permutation_sym Pm)), X.
  - intros m it M H. destruct (V5 m it (J m M) H) as (im & Im & Q). exists im. auto.
  - intros n c ms k w H K W. apply (clause_valid_incl _ _ D). exact (V6 n c ms k w (D' _ H) K W).
  - eapply Permutation_NoDup; [|exact V7]. apply Permutation_map. apply Permutation_flat_map. exact P.
Qed.

Theorem order_same : forall names names' cmd cmd' input input' fuel fs fs1,
  config_command names cmd -> config_command names' cmd' -> same_command cmd cmd' -> Permutation names names' ->
  Forall (fun m => grammatical m = true) input -> Permutation input input' -> run fuel cmd input fs = (fs1, Ok tt) ->
  exists F, forall fuel', (F <= fuel')%nat -> exists fs2, run fuel' cmd' input' fs = (fs2, Ok tt) /\ same_files fs1 fs2.
Proof.
  intros names names' cmd cmd' input input' fuel fs fs1 Hc Hc' S Pn G P R.
  assert (I : incl input input') by (intros x; apply Permutation_in, P).
  assert (J : incl input' input) by (intros x; apply Permutation_in, Permutation_sym, P).
  assert (G' : Forall (fun m => grammatical m = true) input') by (apply Forall_forall; rewrite Forall_forall in G; auto).
  assert (Pr0 := proj1 (run_needs names input G cmd fuel fs Hc ltac:(rewrite R; reflexivity))).
  assert (V' := bundle_valid_perm _ _ _ _ Pn P (pr_valid _ _ Pr0)).
  assert (S' : same_command cmd' cmd) by (destruct cmd, cmd'; cbn [same_command] in *; try contradiction; intuition congruence).
  destruct (fewer_succeeds names' names cmd' cmd input' input fuel fs Hc' Hc S' G J V' ltac:(rewrite R; reflexivity)) as (F0 & Ok0).
  exists (Nat.max F0 fuel). intros fuel' L. assert (Ok1 := Ok0 fuel' fs ltac:(lia)).
  destruct (run fuel' cmd' input' fs) as [fs2 r] eqn:R'. cbn [snd] in Ok1. subst r. exists fs2. split; [reflexivity|].
  assert (U := run_more fuel fuel' cmd input fs ltac:(lia)). rewrite R in U. specialize (U ltac:(discriminate)).
  destruct (run_contents _ _ _ _ _ _ Hc G U) as (b & files & C & -> & N & All & X).
  destruct (run_contents _ _ _ _ _ _ Hc' G' R') as (b' & files' & C' & -> & N' & All' & X').
  assert (Iff : forall x, In x files <-> In x files').
  { intros x. rewrite X, X'. split; intros (bm & fl & Hbm & Q & Hx).
    - destruct (bmodule_module _ _ _ bm C Hbm) as (m & M & Pm). destruct (inside_module _ _ _ _ _ _ m bm C C' (I m M) Pm) as (bm' & Hbm' & E).
      exists bm', fl. split; [exact Hbm'|]. split; [|exact Hx].
      rewrite <- (inside_equal names names' cmd cmd' input input' b b' m bm bm' fuel' C C' S I) ; auto.
      unfold notes_kept. destruct cmd; auto. intros ? ? ? ? _ Hu _. apply J, Hu.
    - destruct (bmodule_module _ _ _ bm C' Hbm) as (m & M & Pm). destruct (inside_module _ _ _ _ _ _ m bm C' C (J m M) Pm) as (bm' & Hbm' & E).
      exists bm', fl. split; [exact Hbm'|]. split; [|exact Hx].
      rewrite <- (inside_equal names' names cmd' cmd input' input b' b m bm bm' fuel' C' C S' J) ; auto.
      unfold notes_kept. destruct cmd'; auto. intros ? ? ? ? _ Hu _. apply I, Hu. }
  intros f. rewrite !folder_get_all. destruct (dict_get f files) as [t|] eqn:D.
  - apply dict_get_In, Iff in D. rewrite (dict_get_NoDup _ f t files' N' D). reflexivity.
  - destruct (dict_get f files') as [t|] eqn:D'; [|reflexivity]. apply dict_get_In, Iff in D'.
    rewrite (dict_get_NoDup _ f t files N D') in D. discriminate.
Qed.
