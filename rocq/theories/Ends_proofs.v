(** * Proofs: validation always ends *)
From Verif Require Import Base PyNum PyStr Ast Size Processor Bundle Lib_proofs.
Open Scope string_scope.

Definition ends {A} (r : result A) : Prop := r <> OutOfFuel.

Lemma ends_ok : forall A (a : A), ends (Ok a).
Proof. intros A a H. discriminate. Qed.
Lemma ends_err : forall A e, ends (@Err A e).
Proof. intros A e H. discriminate. Qed.
Lemma ends_assert : forall b e, ends (assert b e).
Proof. intros [] e H; discriminate. Qed.
Lemma ends_bind : forall A B (r : result A) (f : A -> result B), ends r -> (forall a, ends (f a)) -> ends (bind r f).
Proof. intros A B [a|e|] f Hr Hf H; simpl in H; [exact (Hf a H)|discriminate|exact (Hr eq_refl)]. Qed.
Lemma ends_for_each : forall A (f : A -> result unit) l, (forall x, ends (f x)) -> ends (for_each f l).
Proof.
  intros A f l Hf. induction l as [|x l IH]; simpl; [apply ends_ok|]. apply ends_bind; [apply Hf|]. intros _. exact IH.
Qed.
Lemma ends_map_result : forall A B (f : A -> result B) l, (forall x, ends (f x)) -> ends (map_result f l).
Proof.
  intros A B f l Hf. induction l as [|x l IH]; simpl; [apply ends_ok|]. apply ends_bind; [apply Hf|]. intros y.
  apply ends_bind; [exact IH|]. intros ys. apply ends_ok.
Qed.

Create HintDb ends.
#[local] Hint Resolve ends_ok ends_err ends_assert ends_bind ends_for_each ends_map_result : ends.

Ltac cases := repeat match goal with |- ends (match ?x with _ => _ end) => destruct x end; auto with ends.

Lemma ends_asn1_type : forall t, ends (asn1_type t).
Proof. intros t. unfold asn1_type. apply ends_bind; [cases|]. intros _. cases. Qed.

Lemma ends_process_type : forall t, ends (process_type t).
Proof.
  induction t; cbn [process_type]; (apply ends_bind; [first [assumption|apply ends_ok]|];
    intros _; apply ends_bind; [apply ends_asn1_type|]; intros c; apply ends_ok).
Qed.

Lemma ends_comment : forall h c, ends (check_comment_opt h c).
Proof. intros h [c|]; simpl; [|auto with ends]. unfold check_comment. cases. Qed.

Lemma ends_wcomps : forall w, ends (process_wcomps w).
Proof.
  fix IH 1. intros [c l]. simpl. apply ends_bind; [apply ends_comment|]. intros _.
  induction l as [|[k v kc] l IHl]; [apply ends_ok|]. apply ends_bind; [|intros _; exact IHl].
  simpl. apply ends_bind; [|intros _; apply ends_comment].
  destruct v as [z|f|b|w]; simpl; [apply ends_ok..|apply IH].
Qed.

Lemma ends_member : forall m, ends (process_member m).
Proof.
  intros m. unfold process_member. apply ends_bind; [apply ends_process_type|]. intros _.
  apply ends_bind; [apply ends_comment|]. intros _. apply ends_bind; [destruct (m_with m); [apply ends_wcomps|apply ends_ok]|].
  intros _. apply ends_assert.
Qed.

Lemma ends_place : forall l slots, ends (place l slots).
Proof. induction l as [|e l IH]; intros slots; cbn [place]; [apply ends_ok|]. cases. Qed.

Lemma ends_check_enumerated : forall l, ends (check_enumerated l).
Proof.
  intros l. unfold check_enumerated. destruct (_ =? 0)%Z; [apply ends_ok|].
  destruct (negb _); [apply ends_err|]. apply ends_bind; [apply ends_place|]. intros s. apply ends_map_result.
  intros [e|]; auto with ends.
Qed.

Lemma ends_definition : forall d, ends (process_definition d).
Proof.
  intros [n c l|n c l|n c l|n t c]; simpl.
  - apply ends_bind; [apply ends_comment|]. intros _. apply ends_bind; [apply ends_for_each, ends_member|auto with ends].
  - apply ends_bind; [apply ends_comment|]. intros _. apply ends_bind; [apply ends_for_each, ends_member|auto with ends].
  - apply ends_bind; [apply ends_comment|]. intros _.
    apply ends_bind; [apply ends_for_each; intros e; apply ends_comment|]. intros _.
    apply ends_bind; [apply ends_check_enumerated|auto with ends].
  - apply ends_bind; [apply ends_process_type|]. intros _. apply ends_bind; [apply ends_comment|]. intros _.
    apply ends_bind; [apply ends_assert|]. intros _. apply ends_bind; [unfold check_posix; cases|auto with ends].
Qed.

Lemma ends_parse_module : forall m, ends (parse_module m).
Proof.
  intros m. unfold parse_module. apply ends_bind; [apply ends_comment|]. intros _.
  apply ends_bind; [apply ends_for_each; intros i; apply ends_comment|]. intros _.
  apply ends_bind; [apply ends_comment|]. intros _. apply ends_bind; [apply ends_map_result, ends_definition|]. intros ds.
  apply ends_bind; [|auto with ends]. apply ends_for_each. intros d. apply ends_for_each. intros k. apply ends_assert.
Qed.

Lemma ends_check_wcomps : forall seqs w n, ends (check_wcomps seqs n w).
Proof.
  intros seqs. fix IH 1. intros [c l] n. simpl. destruct (sequences_named seqs n) as [|s [|s' r]]; [apply ends_assert| |apply ends_assert].
  induction l as [|[k v kc] l IHl]; [apply ends_ok|]. apply ends_bind; [apply ends_assert|]. intros _.
  apply ends_bind; [|intros _; exact IHl]. destruct v as [z|f|b|w]; [apply ends_ok..|].
  destruct (find _ _); [apply IH|apply ends_err].
Qed.

Lemma ends_build : forall ms, ends (build ms).
Proof.
  intros ms. unfold build. apply ends_bind; [|auto with ends]. apply ends_for_each. intros n.
  destruct (last_index n ms) as [i|]; [|apply ends_ok]. destruct (nth_error ms i); [apply ends_assert|apply ends_ok].
Qed.

Lemma ends_duplicates : forall l seen, ends (check_duplicates seen l).
Proof. induction l as [|d l IH]; intros seen; simpl; [apply ends_ok|]. destruct (mem _ _); [apply ends_err|apply IH]. Qed.

Lemma ends_validate : forall b, ends (validate_bundle b).
Proof.
  intros b. unfold validate_bundle, check_imported_types_and_components. apply ends_bind; [|intros _; apply ends_duplicates].
  apply ends_bind.
  - apply ends_for_each. intros bm. apply ends_for_each. intros i. destruct (nth_error _ _); [apply ends_assert|apply ends_ok].
  - intros _. apply ends_for_each. intros d. apply ends_for_each. intros k. destruct (m_with k); [apply ends_check_wcomps|apply ends_ok].
Qed.

Lemma ends_config : forall names input, ends (build_from_config names input).
Proof.
  intros names input. unfold build_from_config. apply ends_bind; [apply ends_map_result, ends_parse_module|]. intros ms.
  apply ends_bind; [apply ends_assert|]. intros _. apply ends_bind; [apply ends_build|]. intros b.
  apply ends_bind; [apply ends_validate|]. intros _. apply ends_bind; [apply ends_assert|auto with ends].
Qed.

Lemma ends_cosmos_config : forall input, ends (build_from_cosmos_config input).
Proof.
  intros input. unfold build_from_cosmos_config. apply ends_bind; [apply ends_map_result, ends_parse_module|]. intros ms.
  apply ends_bind; [apply ends_build|]. intros b. apply ends_bind; [apply ends_validate|auto with ends].
Qed.
