(** * Proofs: several runs into one folder *)
From Coq Require Import Sorting.Permutation.
From Verif Require Import Base PyNum PyStr Ast Bundle CCommon GenBinary Main Spec_Grammar Spec_Check Spec_Bundle Spec_Gen Spec_Files Spec_Failures Spec_Hang Spec_Letters Spec_Series
  Run_proofs Files_proofs Exact_proofs Half_proofs.
Open Scope string_scope.
Open Scope list_scope.

Theorem series_texts : forall xs fs fs', Forall run_given xs -> series xs fs fs' -> forall f text, folder_get fs' f = Some text ->
  folder_get fs f = Some text
  \/ exists fuel cmd input m, In (fuel, cmd, input) xs /\ In m input /\ file_text cmd input m f text.
Proof.
  intros xs fs fs' G H. induction H as [fs|fuel cmd input xs fs fs1 r fs2 R H IH]; intros f text E; [left; exact E|].
  inversion G as [|? ? Gx G']; subst. destruct Gx as ((names & Hc) & Hg). destruct (IH G' f text E) as [E1|(n & c & i & m & Hx & Hm & T)].
  - destruct (never_torn _ _ _ _ _ _ _ _ _ Hc Hg R E1) as [E0|(m & Hm & T)]; [left; exact E0|right].
    exists fuel, cmd, input, m. split; [left; reflexivity|auto].
  - right. exists n, c, i, m. split; [right; exact Hx|auto].
Qed.

Theorem series_untouched : forall xs fs fs', Forall run_given xs -> series xs fs fs' ->
  forall f, (forall x, In x xs -> ~ names_file x f) -> folder_get fs' f = folder_get fs f.
Proof.
  intros xs fs fs' G H. induction H as [fs|fuel cmd input xs fs fs1 r fs2 R H IH]; intros f N; [reflexivity|].
  inversion G as [|? ? Gx G']; subst. destruct Gx as ((names & Hc) & Hg). rewrite (IH G' f (fun x Hx => N x (or_intror Hx))).
  destruct (left_files _ _ _ _ _ _ _ Hc Hg R) as (done & rest & P & _ & _ & _ & _ & _ & X).
  assert (D : forall m, In m done -> ~ file_of cmd m f).
  { intros m Hm Hf. apply (N (fuel, cmd, input) (or_introl eq_refl)). exists m. split; [|exact Hf].
    apply (Permutation_in _ (Permutation_sym P)). apply in_or_app. left. exact Hm. }
  assert (Y : forall text, folder_get fs1 f = Some text <-> folder_get fs f = Some text).
  { intros text. rewrite (X f text). split; [intros [(m & Hm & T)|(_ & E)]; [|exact E]|auto].
    destruct (D m Hm). eapply text_file_of. exact T. }
  destruct (folder_get fs1 f) as [t|]; [symmetry; apply Y; reflexivity|].
  destruct (folder_get fs f) as [t|]; [apply Y; reflexivity|reflexivity].
Qed.

Theorem series_kept : forall xs fs fs', Forall run_given xs -> series xs fs fs' ->
  forall f, folder_get fs f <> None -> folder_get fs' f <> None.
Proof.
  intros xs fs fs' G H. induction H as [fs|fuel cmd input xs fs fs1 r fs2 R H IH]; intros f N; [exact N|].
  inversion G as [|? ? Gx G']; subst. destruct Gx as ((names & Hc) & Hg). apply (IH G'). intros E. apply N.
  destruct (left_files _ _ _ _ _ _ _ Hc Hg R) as (done & rest & _ & _ & _ & _ & _ & Z & X).
  destruct (folder_get fs f) as [t|] eqn:E0; [|reflexivity]. exfalso.
  destruct (any_file_of_dec names cmd done f Hc) as [(m & Hm & Hf)|D].
  - destruct (Z m f Hm Hf) as (text & T). assert (Y : folder_get fs1 f = Some text) by (apply X; eauto). congruence.
  - assert (Y : folder_get fs1 f = Some t) by (apply X; auto). congruence.
Qed.

Lemma run_any_folder : forall names cmd fuel input fs fs' g, config_command names cmd -> run fuel cmd input fs = (fs', Ok tt) ->
  exists g', run fuel cmd input g = (g', Ok tt).
Proof.
  intros names cmd fuel input fs fs' g Hc R. rewrite (run_config names) in * by exact Hc.
  destruct (build_from_config names input) as [b|e|]; [|discriminate R..]. unfold write_outcome in *. injection R as _ ->. eauto.
Qed.

Theorem series_recovered : forall xs fs fs1 names cmd fuel input fs2, Forall run_given xs -> series xs fs fs1 ->
  config_command names cmd -> Forall (fun m => grammatical m = true) input -> run fuel cmd input fs1 = (fs2, Ok tt) ->
  exists fs', run fuel cmd input fs = (fs', Ok tt)
    /\ forall f, names_file (fuel, cmd, input) f \/ (forall x, In x xs -> ~ names_file x f) -> folder_get fs2 f = folder_get fs' f.
Proof.
  intros xs fs fs1 names cmd fuel input fs2 G H Hc Hg R. destruct (run_any_folder _ _ _ _ _ _ fs Hc R) as (fs' & R').
  exists fs'. split; [exact R'|]. intros f Hf.
  assert (W := whole_folder_exact _ _ _ _ _ _ Hc Hg R f). assert (W' := whole_folder_exact _ _ _ _ _ _ Hc Hg R' f).
  assert (Y : forall text, folder_get fs2 f = Some text <-> folder_get fs' f = Some text).
  { intros text. rewrite W, W'. destruct Hf as [(m & Hm & Hf)|N].
    - split; (intros [E|(D & _)]; [left; exact E|destruct (D m Hm Hf)]).
    - rewrite (series_untouched _ _ _ G H f N). reflexivity. }
  destruct (folder_get fs2 f) as [t|]; [symmetry; apply Y; reflexivity|].
  destruct (folder_get fs' f) as [t|]; [apply Y; reflexivity|reflexivity].
Qed.

Theorem series_no_trace : forall xs fs fs1 names cmd fuel input fs2, Forall run_given xs -> series xs fs fs1 ->
  config_command names cmd -> Forall (fun m => grammatical m = true) input -> run fuel cmd input fs1 = (fs2, Ok tt) ->
  (forall x f, In x xs -> names_file x f -> names_file (fuel, cmd, input) f) ->
  exists fs', run fuel cmd input fs = (fs', Ok tt) /\ same_files fs2 fs'.
Proof.
  intros xs fs fs1 names cmd fuel input fs2 G H Hc Hg R S. destruct (series_recovered _ _ _ _ _ _ _ _ G H Hc Hg R) as (fs' & R' & E).
  exists fs'. split; [exact R'|]. intros f. apply E.
  destruct (any_file_of_dec names cmd input f Hc) as [X|X]; [left; exact X|right].
  intros x Hx Hf. destruct (S x f Hx Hf) as (m & Hm & Hf'). exact (X m Hm Hf').
Qed.
