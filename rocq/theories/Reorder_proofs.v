(** * Proofs: definitions in another order, validity and lookup (C92) *)
From Coq Require Import Permutation Sorted Lia.
From Verif Require Import Base PyNum PyStr Ast Size Processor Bundle Sorter CCommon GenCfs GenC GenBinary GenCosmos Main
  Lib_proofs Str_proofs Spec_Enum Enum_proofs Spec_Num Num_proofs Spec_Check Check_proofs Spec_Grammar Spec_Bundle Bundle_proofs
  Name_proofs Accept_proofs Spec_Gen Gen_proofs Field_proofs Spec_Order Order_proofs Cdata_proofs Run_proofs Note_proofs
  Spec_Files Files_proofs Fuel_proofs Spec_Layout Spec_Cfs Spec_Binary Spec_Runs Runs_proofs Runs2_proofs Spec_Failures Failures_proofs
  Spec_Inputs Inputs_proofs Spec_Size Spec_Cosmos Cosmos_runs_proofs Spec_History Last_proofs Spec_Reorder.
Open Scope string_scope.
Open Scope list_scope.

Lemma reordered_sym : forall m m', reordered m m' -> reordered m' m.
Proof. intros m m' [A B C D E]. split; symmetry; assumption. Qed.
Lemma reordered_flip : forall ms ms', Forall2 reordered ms ms' -> Forall2 reordered ms' ms.
Proof. intros ms ms' F. induction F; constructor; [apply reordered_sym|]; assumption. Qed.

Lemma reordered_names : forall ms ms', Forall2 reordered ms ms' -> map mod_name ms' = map mod_name ms.
Proof. intros ms ms' F. induction F as [|m m' l l' S F IH]; [reflexivity|]. cbn [map]. rewrite IH, (re_name _ _ S). reflexivity. Qed.
Lemma reordered_definitions : forall ms ms', Forall2 reordered ms ms' -> Permutation (definitions ms) (definitions ms').
Proof.
  intros ms ms' F. induction F as [|m m' l l' S F IH]; [constructor|]. cbn [definitions flat_map]. apply Permutation_app; [apply S|exact IH].
Qed.
Lemma reordered_in : forall ms ms' m, Forall2 reordered ms ms' -> In m ms -> exists m', In m' ms' /\ reordered m m'.
Proof. intros ms ms' m F H. exact (Forall2_in_l _ _ _ _ _ _ F H). Qed.
Lemma reordered_nth : forall ms ms' i m, Forall2 reordered ms ms' -> nth_error ms i = Some m ->
  exists m', nth_error ms' i = Some m' /\ reordered m m'.
Proof.
  intros ms ms' i m F. revert i. induction F as [|x x' l l' S F IH]; intros [|i] H; try discriminate; cbn [nth_error] in *; [|auto].
  injection H as <-. eauto.
Qed.

Lemma reordered_def : forall m m' d, reordered m m' -> (In d (mod_defs m) <-> In d (mod_defs m')).
Proof. intros m m' d S. split; apply Permutation_in; [apply S|apply Permutation_sym, S]. Qed.
Lemma reordered_defined : forall m m' n, reordered m m' -> (In n (defined_names m) <-> In n (defined_names m')).
Proof.
  intros m m' n S. unfold defined_names. split; apply Permutation_in; apply Permutation_map; [apply S|apply Permutation_sym, S].
Qed.
Lemma reordered_uses : forall m m' n, reordered m m' -> uses_type m n -> uses_type m' n.
Proof. intros m m' n S (d & k & D & K). exists d, k. split; [apply (reordered_def _ _ d S), D|exact K]. Qed.

Lemma reordered_grammatical : forall m m', reordered m m' -> grammatical m = true -> grammatical m' = true.
Proof.
  intros m m' [A B C D P] G. unfold grammatical in *. rewrite A, B, C, D. repeat (apply andb_prop in G as (G & ?)).
  repeat (apply andb_true_intro; split); try assumption.
  - destruct (mod_defs m'); [|reflexivity]. apply Permutation_sym, Permutation_nil in P. rewrite P in *. assumption.
  - apply forallb_forall. intros d I. match goal with H : forallb _ _ = true |- _ => rewrite forallb_forall in H; apply H end.
    eapply Permutation_in; [apply Permutation_sym|]; eassumption.
Qed.

Lemma reordered_module_valid : forall m m', reordered m m' -> module_valid m -> module_valid m'.
Proof.
  intros m m' S (V1 & V2 & V3). assert (S' := S). destruct S' as [A B C D P]. split; [|split].
  - unfold module_comments in *. rewrite B, C, D. rewrite !Forall_app in *. destruct V1 as (X & Y & Z & W). repeat split; auto.
    rewrite Forall_forall in *. intros c I. apply W. eapply Permutation_in; [apply Permutation_flat_map, Permutation_sym, P|exact I].
  - rewrite Forall_forall in *. intros d I. apply V2, (reordered_def _ _ d S), I.
  - intros d k n I J E. destruct (V3 d k n (proj2 (reordered_def _ _ d S) I) J E) as [Q|Q].
    + left. unfold imported_names in *. rewrite C. exact Q.
    + right. apply (reordered_defined _ _ n S), Q.
Qed.

Section Valid.
Variables input input' : list module.
Hypothesis F : Forall2 reordered input input'.

Lemma defs_iff : forall d, In d (definitions input) <-> In d (definitions input').
Proof. intros d. assert (P := reordered_definitions _ _ F). split; apply Permutation_in; [exact P|apply Permutation_sym, P]. Qed.

Lemma modules_valid : Forall module_valid input -> Forall module_valid input'.
Proof.
  intros V. rewrite Forall_forall in *. intros m' I. destruct (reordered_in _ _ m' (reordered_flip _ _ F) I) as (m & M & S).
  eapply reordered_module_valid; [apply reordered_sym; exact S|apply V, M].
Qed.
Lemma clauses_still_valid : clauses_valid (definitions input) -> clauses_valid (definitions input').
Proof.
  intros V n c ms k w H K W. apply (clause_valid_incl (definitions input)); [intros d; apply defs_iff|].
  exact (V n c ms k w (proj2 (defs_iff _) H) K W).
Qed.
Lemma names_still_unique : NoDup (map def_name (definitions input)) -> NoDup (map def_name (definitions input')).
Proof. apply Permutation_NoDup, Permutation_map, reordered_definitions, F. Qed.

Lemma still_valid : forall names, bundle_valid names input -> bundle_valid names input'.
Proof.
  intros names [V1 V2 V3 V4 V5 V6 V7]. split; auto using modules_valid, clauses_still_valid, names_still_unique.
  - rewrite (reordered_names _ _ F). exact V2.
  - rewrite (reordered_names _ _ F). exact V4.
  - intros m' it M' It. destruct (reordered_in _ _ m' (reordered_flip _ _ F) M') as (m & M & S). rewrite <- (re_imports _ _ S) in It.
    destruct (V5 m it M It) as (im & Im & E & J). destruct (reordered_in _ _ im F Im) as (im' & Im' & S'). exists im'. split; [exact Im'|].
    split; [rewrite (re_name _ _ S'); exact E|]. intros x X. apply (reordered_defined _ _ x S'), J, X.
Qed.

Lemma imports_still_acyclic : acyclic (imports_from input) -> acyclic (imports_from input').
Proof.
  intros A (x & X). apply A. exists x. revert X. generalize x at 2 4. intros y X.
  induction X as [x y (m' & it & M & H)|x y z X1 I1 X2 I2].
  - apply Relation_Operators.t_step. destruct (reordered_in _ _ m' (reordered_flip _ _ F) M) as (m & Mm & S).
    exists m, it. rewrite (re_name _ _ S), (re_imports _ _ S). auto.
  - eapply Relation_Operators.t_trans; eassumption.
Qed.
Lemma types_still_acyclic : forall m m', reordered m m' -> acyclic (uses_local m) -> acyclic (uses_local m').
Proof.
  intros m m' S A (x & X). apply A. exists x. revert X. generalize x at 2 4. intros y X.
  induction X as [x y (d & k & D & N & K & E & I)|x y z X1 I1 X2 I2].
  - apply Relation_Operators.t_step. exists d, k. repeat split; auto; [apply (reordered_def _ _ d S), D|apply (reordered_defined _ _ y S), I].
  - eapply Relation_Operators.t_trans; eassumption.
Qed.

Lemma still_processable : forall names, processable names input -> processable names input'.
Proof.
  intros names [V1 V2 V3 V4]. split; auto using still_valid, imports_still_acyclic.
  - intros m' M'. destruct (reordered_in _ _ m' (reordered_flip _ _ F) M') as (m & M & S).
    eapply types_still_acyclic; [apply reordered_sym; exact S|apply V3, M].
  - intros n c l k H K. apply defs_iff in H. destruct (V4 n c l k H K) as [E|s x E|E D|x t' c' E Q D|x d E Q Eq S].
    + apply has_boolean, E.
    + eapply has_string, E.
    + apply has_number; assumption.
    + eapply has_simple; [exact E|apply defs_iff; exact Q|exact D].
    + eapply has_other; [exact E|apply defs_iff; exact Q|exact Eq|exact S].
Qed.

Lemma still_cfs_processable : cfs_processable input -> cfs_processable input'.
Proof.
  intros [V1 V2]. split.
  - intros n c l k w H. apply defs_iff in H. exact (V1 n c l k w H).
  - intros n t c m' H M' U. apply defs_iff in H. destruct (reordered_in _ _ m' (reordered_flip _ _ F) M') as (m & M & S).
    apply (V2 n t c m H M). eapply reordered_uses; eassumption.
Qed.
End Valid.

(** Sizes and images depend only on which definitions there are. *)
Section Images.
Variables ds ds' : list definition.
Hypothesis I : forall d, In d ds <-> In d ds'.

Lemma leaf_size_same : forall t w, leaf_size ds t w -> leaf_size ds' t w.
Proof.
  intros t w [? ? A B|n c t0 w0 A B|n c l w0 A B|n w0 A B].
  - apply leaf_value; assumption.
  - eapply leaf_simple; [apply I; exact A|exact B].
  - eapply leaf_enum; [apply I; exact A|exact B].
  - apply leaf_undefined; [|exact B]. intros H. apply A. apply in_map_iff in H as (d & <- & D). apply in_map, I, D.
Qed.
Lemma leaves_same : forall l ls, leaves ds l ls -> leaves ds' l ls.
Proof.
  intros l ls H. induction H as [|m w r ls A B IH|m n c l r ls ls' A B C IH1 D IH2]; [constructor|..].
  - constructor; [apply leaf_size_same; exact A|exact IH].
  - eapply leaves_nested; [exact A|apply I; exact B|exact IH1|exact IH2].
Qed.
Lemma bit_size_same : forall t w, bit_size ds t w -> bit_size ds' t w.
Proof.
  intros t w [H|(n & c & l & ls & -> & A & B & ->)]; [left; apply leaf_size_same; exact H|right].
  exists n, c, l, ls. repeat split; [apply I; exact A|apply leaves_same; exact B].
Qed.
Lemma encoded_same : forall t enc, encoded_as ds t enc -> encoded_as ds' t enc.
Proof. intros t enc []; econstructor; eauto using bit_size_same. Qed.

Variables mds mds' : list definition.
Hypothesis J : forall d, In d mds <-> In d mds'.
Lemma clause_image_same : forall e t w b, clause_image ds mds e t w b -> clause_image ds' mds' e t w b.
Proof.
  intros e. fix IH 4. intros t w b [t0 n c ms cm l b0 A B C]. econstructor; [exact A|apply J; exact B|]. clear A B.
  revert ms l b0 C. fix IH' 4. intros ms l b0 [ms0|ms0 k v c0 r x enc b1 b2 P Q R S T|ms0 k w0 c0 r x b1 b2 P Q T].
  - constructor.
  - eapply items_leaf; [exact P|exact Q|apply encoded_same; exact R|exact S|apply IH'; exact T].
  - eapply items_nested; [exact P|apply IH; exact Q|apply IH'; exact T].
Qed.
End Images.

Lemma still_binary_processable : forall input input', Forall2 reordered input input' ->
  forall e, binary_processable e input -> binary_processable e input'.
Proof.
  intros input input' F e [V1 V2]. assert (Id := defs_iff _ _ F). split.
  - intros m' n c l k n' c' l' k' M' D K W D' K' W'. destruct (reordered_in _ _ m' (reordered_flip _ _ F) M') as (m & M & S).
    apply (reordered_def _ _ _ S) in D, D'. destruct (V1 m n c l k n' c' l' k' M D K W D' K' W') as (w & B). exists w.
    eapply bit_size_same; [exact Id|exact B].
  - intros m' n c l k w M' D K W. destruct (reordered_in _ _ m' (reordered_flip _ _ F) M') as (m & M & S).
    apply (reordered_def _ _ _ S) in D. destruct (V2 m n c l k w M D K W) as (e' & b & E & B). exists e', b. split; [exact E|].
    eapply clause_image_same; [exact Id| |exact B]. intros d. symmetry. apply (reordered_def _ _ d S).
Qed.

(** ** Success *)

Lemma reordered_succeeds : forall names cmd input input' fuel fs, config_command names cmd ->
  Forall (fun m => grammatical m = true) input -> Forall2 reordered input input' ->
  snd (run fuel cmd input fs) = Ok tt -> exists F, forall fuel' fs', (F <= fuel')%nat -> snd (run fuel' cmd input' fs') = Ok tt.
Proof.
  intros names cmd input input' fuel fs Hc G F R.
  assert (G' : Forall (fun m => grammatical m = true) input').
  { rewrite Forall_forall in *. intros m' M'. destruct (reordered_in _ _ m' (reordered_flip _ _ F) M') as (m & M & S).
    eapply reordered_grammatical; [apply reordered_sym; exact S|apply G, M]. }
  exists (S (length input' + length (definitions input'))). intros fuel' fs' L. destruct Hc as [->|[->|(e & ->)]].
  - destruct (proj1 (cfs_run_iff names input G fs) fuel R) as (P & Q).
    apply (cfs_run_iff names input' G' fs'); [eapply still_processable|eapply still_cfs_processable|]; eassumption.
  - assert (P := proj1 (c_run_iff names input G fs) fuel R).
    apply (c_run_iff names input' G' fs'); [eapply still_processable|]; eassumption.
  - destruct (proj1 (binary_run_iff names input G e fs) fuel R) as (P & Q).
    apply (binary_run_iff names input' G' e fs'); [eapply still_processable|eapply still_binary_processable|]; eassumption.
Qed.
