(** * Proofs: several processes on one disk *)
From Coq Require Import Sorting.Permutation.
From Verif Require Import Base PyNum PyStr Ast CCommon GenBinary Main Source Spec_Grammar Spec_Gen Spec_Check Spec_Bundle Spec_Runs Spec_History
  Cli Spec_Cli Status Tree Spec_Tree Spec_Failures Spec_Hang Spec_Done Spec_Letters Spec_Processes Exact_proofs Half_proofs Half_disk_proofs.
Open Scope string_scope.
Open Scope list_scope.

(** One process. *)
Lemma process_left : forall cmd e ms t t', process cmd e ms t t' ->
  exists done, (forall m, In m done -> In m ms)
    /\ (forall m f, In m done -> file_of cmd m f -> exists text, file_text cmd ms m f text)
    /\ (forall l, is_folder t l -> is_folder t' l)
    /\ forall l c, file_at t' l c <->
      (exists m f, In m done /\ l = e ++ [f] /\ file_text cmd ms m f c) \/ (~ output_place e cmd done l /\ file_at t l c).
Proof.
  intros cmd e ms t t' (fuel & cwd & words & a & dir & names & vs & x & L & -> & Hc & C & Ld & F & V & Rm & S).
  destruct (left_on_disk fuel cwd words t a dir names vs e ms L Hc C Ld F V Rm) as (done & left & t1 & x1 & S1 & P & _ & _ & _ & _ & Z & B & X).
  assert (t' = t1) as -> by congruence. exists done. split; [|split; [exact Z|split; [|exact X]]].
  - intros m H. apply (Permutation_in _ (Permutation_sym P)). apply in_or_app. left. exact H.
  - intros l H. apply B. left. exact H.
Qed.

Lemma some_output_place_dec : forall cmd e ms t t' done l, process cmd e ms t t' ->
  output_place e cmd done l \/ ~ output_place e cmd done l.
Proof.
  intros cmd e ms t t' done l (fuel & cwd & words & a & dir & names & vs & x & _ & _ & Hc & _).
  destruct (rev l) as [|n r] eqn:E.
  - right. intros (m & n & _ & _ & ->). rewrite rev_app_distr in E. discriminate E.
  - assert (El : l = rev r ++ [n]) by (rewrite <- (rev_involutive l), E; reflexivity).
    destruct (list_eq_dec string_dec (rev r) e) as [<-|N].
    + destruct (any_file_of_dec names cmd done n Hc) as [(m & Hm & Hf)|D]; [left; exists m, n; auto|right].
      intros (m & n' & Hm & Hf & Q). rewrite El in Q. apply app_inj_tail in Q as (_ & <-). exact (D m Hm Hf).
    + right. intros (m & n' & _ & _ & Q). rewrite El in Q. apply app_inj_tail in Q as (Q & _). contradiction.
Qed.

Theorem processes_texts : forall xs t t', processes xs t t' -> forall l c, file_at t' l c ->
  file_at t l c
  \/ exists cmd e ms m f, In (cmd, e, ms) xs /\ In m ms /\ l = e ++ [f] /\ file_text cmd ms m f c.
Proof.
  intros xs t t' H. induction H as [t|cmd e ms xs t t1 t2 P H IH]; intros l c E; [left; exact E|].
  destruct (IH l c E) as [E1|(cmd' & e' & ms' & m & f & Hx & Y)].
  - destruct (process_left _ _ _ _ _ P) as (done & I & _ & _ & X). destruct (proj1 (X l c) E1) as [(m & f & Hm & El & T)|(_ & E0)]; [right|left; exact E0].
    exists cmd, e, ms, m, f. split; [left; reflexivity|]. auto.
  - right. exists cmd', e', ms', m, f. split; [right; exact Hx|exact Y].
Qed.

Theorem processes_untouched : forall xs t t', processes xs t t' -> forall l c,
  (forall cmd e ms, In (cmd, e, ms) xs -> ~ output_place e cmd ms l) -> (file_at t' l c <-> file_at t l c).
Proof.
  intros xs t t' H. induction H as [t|cmd e ms xs t t1 t2 P H IH]; intros l c N; [tauto|].
  rewrite (IH l c (fun a b d Hx => N a b d (or_intror Hx))). destruct (process_left _ _ _ _ _ P) as (done & I & _ & _ & X).
  assert (D : ~ output_place e cmd done l).
  { intros (m & n & Hm & Hf & El). apply (N cmd e ms (or_introl eq_refl)). exists m, n. auto. }
  rewrite (X l c). split; [intros [(m & f & Hm & El & T)|(_ & E)]; [|exact E]|auto].
  destruct D. exists m, f. split; [exact Hm|]. split; [eapply text_file_of; exact T|exact El].
Qed.

Theorem processes_kept : forall xs t t', processes xs t t' ->
  (forall l, is_folder t l -> is_folder t' l) /\ forall l, is_file t l -> is_file t' l.
Proof.
  intros xs t t' H. induction H as [t|cmd e ms xs t t1 t2 P H (IH1 & IH2)]; [auto|].
  destruct (process_left _ _ _ _ _ P) as (done & I & Z & B & X). split; [auto|]. intros l (c & E). apply IH2.
  destruct (some_output_place_dec _ _ _ _ _ done l P) as [(m & n & Hm & Hf & El)|N].
  - destruct (Z m n Hm Hf) as (text & T). exists text. apply X. left. exists m, n. auto.
  - exists c. apply X. auto.
Qed.
