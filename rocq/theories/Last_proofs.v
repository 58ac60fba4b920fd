(** * Proofs: several modules of one name in the cosmos command *)
From Coq Require Import Lia List.
From Verif Require Import Base PyNum PyStr Ast Size Processor Bundle GenCosmos Main Lib_proofs Spec_Enum Enum_proofs Spec_Grammar Spec_Num Spec_Check
  Spec_Bundle Check_proofs Bundle_proofs Spec_Size Spec_Cosmos Cosmos_proofs Cosmos_runs_proofs Spec_History.
Open Scope list_scope.

Lemma last_exists : forall ms n, In n (map mod_name ms) -> exists j m, last_named ms j m /\ mod_name m = n.
Proof.
  intros ms n H. destruct (last_index_In n ms H) as (j & Hj). apply last_index_last in Hj. destruct Hj as (m & L & E). eauto.
Qed.

Lemma last_same : forall ms j m j' m', last_named ms j m -> last_named ms j' m' -> mod_name m = mod_name m' -> j = j' /\ m = m'.
Proof.
  intros ms j m j' m' L L' E. assert (A : last_index (mod_name m) ms = Some j) by (apply last_index_last; eauto).
  assert (B : last_index (mod_name m) ms = Some j') by (apply last_index_last; eauto). assert (j = j') by congruence. subst j'.
  split; [reflexivity|]. destruct L as (L & _), L' as (L' & _). congruence.
Qed.

(** The list of imports is empty unless the module is the last of its name. *)
Lemma last_imported : forall ms b, build ms = Ok b ->
  (check_imports b = Ok tt <->
   forall i m j im it, last_named ms i m -> last_named ms j im -> In it (mod_imports m) -> imp_module it = mod_name im ->
     incl (imp_names it) (defined_names im)).
Proof.
  intros ms b Hb. rewrite check_imports_ok. split.
  - intros H i m j im it Li Lj Hit E. assert (Hi := proj1 Li). assert (Hj := proj1 Lj).
    apply (H (mkbmodule m (imported_of ms i m)) j (mkbmodule im (imported_of ms j im))).
    + apply nth_error_In with i. rewrite (build_nth ms b i Hb), Hi. reflexivity.
    + cbn [bm_imported]. apply imported_of_imports; [exact Hi|]. exists m, im, it. auto.
    + rewrite (build_nth ms b j Hb), Hj. reflexivity.
    + exact Hit.
    + exact E.
  - intros H bm j im Hbm Hj Him it Hit E. apply In_nth_error in Hbm. destruct Hbm as (i & Hi).
    rewrite (build_nth ms b i Hb) in Hi. destruct (nth_error ms i) as [m|] eqn:Em; [|discriminate]. injection Hi as <-.
    rewrite (build_nth ms b j Hb) in Him. destruct (nth_error ms j) as [im'|] eqn:Ej; [|discriminate]. injection Him as <-.
    cbn [bm_imported bm_mod bm_name] in *. apply (imported_of_imports ms i m j Em) in Hj.
    destruct Hj as (m0 & im0 & it0 & Li & Lj & _). assert (m0 = m) by (destruct Li; congruence). assert (im0 = im') by (destruct Lj; congruence). subst.
    exact (H i m j im' it Li Lj Hit E).
Qed.

Lemma last_resolve_build : forall ms b, build ms = Ok b -> (check_imports b = Ok tt <-> last_imports_resolve ms).
Proof.
  intros ms b Hb. rewrite (last_imported ms b Hb). split.
  - intros H i m it Li Hit.
    assert (D : check_dependencies ms = Ok tt) by (unfold build in Hb; inv_ok; assumption).
    rewrite check_dependencies_ok in D.
    assert (X : In (imp_module it) (map mod_name ms)).
    { apply (D i m (proj1 Li)); [apply last_index_last; eauto|]. apply in_map. exact Hit. }
    destruct (last_exists _ _ X) as (j & im & Lj & E). exists j, im. split; [exact Lj|]. split; [exact E|].
    exact (H i m j im it Li Lj Hit (eq_sym E)).
  - intros H i m j im it Li Lj Hit E. destruct (H i m it Li Hit) as (j' & im' & Lj' & E' & I).
    destruct (last_same _ _ _ _ _ Lj Lj') as (_ & ->); [congruence|]. exact I.
Qed.

Lemma last_dependencies : forall ms, last_imports_resolve ms -> check_dependencies ms = Ok tt.
Proof.
  intros ms H. apply check_dependencies_ok. intros i m Hi Hl n Hn. apply last_index_last in Hl. destruct Hl as (m' & L & _).
  assert (m' = m) by (destruct L; congruence). subst m'. apply in_map_iff in Hn. destruct Hn as (it & <- & Hit).
  destruct (H i m it L Hit) as (j & im & (Lj & _) & <- & _). apply in_map. eapply nth_error_In. exact Lj.
Qed.

Lemma last_resolve_same : forall A B, Forall2 same_module A B -> last_imports_resolve A -> last_imports_resolve B.
Proof.
  intros A B F H i b it L Hit.
  assert (N : Forall2 (fun a b => mod_name b = mod_name a /\ mod_imports b = mod_imports a) A B).
  { revert F. clear. intros F. induction F as [|x y l l' S F IH]; constructor; [destruct S as (S1 & _ & S2 & _); auto|exact IH]. }
  destruct (same_last _ _ (same_flip _ _ N) _ _ L) as (a & La & Ea & Ia). rewrite <- Ia in Hit.
  destruct (H i a it La Hit) as (j & im & Lj & E & I). destruct (same_last _ _ N _ _ Lj) as (im' & Lj' & E' & _).
  exists j, im'. split; [exact Lj'|]. split; [congruence|].
  assert (S : same_module im im').
  { clear - F Lj Lj'. destruct Lj as (X & _), Lj' as (Y & _). revert j X Y. induction F as [|x y l l' S F IH]; intros [|j] X Y; try discriminate;
      cbn [nth_error] in *; [congruence|eauto]. }
  rewrite (same_defined_names _ _ S). exact I.
Qed.
Lemma same_module_flip_resolve : forall A B, Forall2 same_module A B -> last_imports_resolve B -> last_imports_resolve A.
Proof.
  intros A B F H i a it L Hit.
  assert (N : Forall2 (fun a b => mod_name b = mod_name a /\ mod_imports b = mod_imports a) A B).
  { revert F. clear. intros F. induction F as [|x y l l' S F IH]; constructor; [destruct S as (S1 & _ & S2 & _); auto|exact IH]. }
  destruct (same_last _ _ N _ _ L) as (b & Lb & Eb & Ib). rewrite <- Ib in Hit.
  destruct (H i b it Lb Hit) as (j & im & Lj & E & I). destruct (same_last _ _ (same_flip _ _ N) _ _ Lj) as (im' & Lj' & E' & _).
  exists j, im'. split; [exact Lj'|]. split; [congruence|].
  assert (S : same_module im' im).
  { clear - F Lj Lj'. destruct Lj as (X & _), Lj' as (Y & _). revert j X Y. induction F as [|x y l l' S F IH]; intros [|j] X Y; try discriminate;
      cbn [nth_error] in *; [congruence|eauto]. }
  rewrite <- (same_defined_names _ _ S). exact I.
Qed.

Lemma cosmos_accepted_any : forall input, Forall (fun m => grammatical m = true) input ->
  ((exists b, build_from_cosmos_config input = Ok b) <->
   Forall module_valid input /\ last_imports_resolve input /\ clauses_valid (definitions input)
   /\ NoDup (map def_name (definitions input))).
Proof.
  intros input Hg.
  assert (CC : forall ms, parse_modules input = Ok ms -> NoDup (map def_name (definitions input)) ->
    (check_used_components_defined (definitions ms) = Ok tt <-> clauses_valid (definitions input))).
  { intros ms Hp Hd. assert (Hv : Forall module_valid input) by (apply parse_modules_iff; eauto).
    assert (Hs := parse_modules_same _ _ Hp). assert (Hds := same_definitions _ _ Hs).
    rewrite <- (clauses_valid_same _ _ Hds). apply check_components_ok.
    + rewrite (same_definitions_names _ _ Hds). exact Hd.
    + intros d Hin. destruct (Forall2_in_r _ _ _ _ _ _ Hds Hin) as (d0 & Hd0 & E).
      rewrite (same_definition_name _ _ E). apply (definitions_capital input); assumption.
    + intros n c l k Hin Hk. apply (same_sequences _ _ n c l Hds) in Hin.
      destruct (definitions_types input (DSequence n c l) k Hg Hv Hin Hk) as (A & _ & B). auto. }
  split.
  - intros (b & H). unfold build_from_cosmos_config in H.
    apply bind_ok in H. destruct H as (ms & Hp & H).
    apply bind_ok in H. destruct H as (b' & Hb & H).
    apply bind_ok in H. destruct H as ([] & Hvb & H).
    assert (Hs := parse_modules_same _ _ Hp). assert (Hds := same_definitions _ _ Hs).
    assert (Ha : all_defs b' = definitions ms) by (unfold all_defs; rewrite (build_modules ms b' Hb); reflexivity).
    unfold validate_bundle, check_imported_types_and_components in Hvb.
    rewrite !bind_unit_ok, Ha, check_duplicates_ok, (same_definitions_names _ _ Hds) in Hvb. destruct Hvb as ((Hi & Hc) & Hd & _).
    split; [apply parse_modules_iff; eauto|]. split; [|split; [apply (CC ms Hp Hd); exact Hc|exact Hd]].
    apply (same_module_flip_resolve _ _ Hs). apply (last_resolve_build ms b' Hb). exact Hi.
  - intros (Hv & Hi & Hc & Hd).
    destruct (parse_modules_iff input Hg) as [_ G]. destruct (G Hv) as (ms & Hp). clear G.
    assert (Hs := parse_modules_same _ _ Hp). assert (Hds := same_definitions _ _ Hs).
    assert (Hi' := last_resolve_same _ _ Hs Hi).
    assert (Hb : exists b, build ms = Ok b) by (unfold build; rewrite (last_dependencies ms Hi'); cbn [bind]; eauto).
    destruct Hb as (b & Hb). exists b. unfold build_from_cosmos_config. rewrite Hp. cbn [bind]. rewrite Hb. cbn [bind].
    assert (V : validate_bundle b = Ok tt).
    { assert (Ha : all_defs b = definitions ms) by (unfold all_defs; rewrite (build_modules ms b Hb); reflexivity).
      unfold validate_bundle, check_imported_types_and_components.
      rewrite !bind_unit_ok, Ha, check_duplicates_ok, (same_definitions_names _ _ Hds). split; [|split; [exact Hd|intros d _ []]].
      split; [apply (last_resolve_build ms b Hb); exact Hi'|apply (CC ms Hp Hd); exact Hc]. }
    rewrite V. reflexivity.
Qed.

(** For distinct names all modules are the last ones. *)
Lemma last_distinct : forall ms, NoDup (map mod_name ms) -> (last_imports_resolve ms <-> imports_resolve ms).
Proof.
  intros ms N.
  assert (L : forall i m, nth_error ms i = Some m -> last_named ms i m).
  { intros i m Hm. split; [exact Hm|]. intros j m' J Hj E. assert (i = j); [|lia].
    apply (NoDup_nth_error_map _ _ mod_name ms i j m m' N Hm Hj). congruence. }
  split.
  - intros H m it Hm Hit. apply In_nth_error in Hm. destruct Hm as (i & Hi). destruct (H i m it (L _ _ Hi) Hit) as (j & im & (Hj & _) & E & I).
    exists im. split; [eapply nth_error_In; exact Hj|auto].
  - intros H i m it (Hi & _) Hit. destruct (H m it (nth_error_In _ _ Hi) Hit) as (im & Him & E & I).
    apply In_nth_error in Him. destruct Him as (j & Hj). exists j, im. auto.
Qed.
