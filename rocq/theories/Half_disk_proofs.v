(** * Proofs: what a process leaves on disk, also if it fails *)
From Coq Require Import Sorting.Permutation.
From Verif Require Import Base PyNum PyStr Ast CCommon GenBinary Main Source Spec_Grammar Spec_Gen Spec_Check Spec_Bundle Spec_Runs Spec_History
  Cli Spec_Cli Status Tree Spec_Tree Spec_Failures Spec_Hang Spec_Done Spec_Letters Tree_proofs Tree2_proofs Tree3_proofs Done_proofs
  Exact_proofs Ondisk_proofs Half_proofs.
Open Scope string_scope.
Open Scope list_scope.

Theorem left_on_disk : forall fuel cwd words t a dir names vs e ms, command_line words a dir -> config_command names (command_of a) ->
  is_folder t cwd -> leads cwd dir vs e -> Forall2 (path_spells t cwd) (input_paths a) ms -> bundle_valid names ms -> room t vs e (command_of a) ms ->
  exists done left t' x, start_in fuel cwd words t = (t', Some x)
    /\ Permutation ms (done ++ left) /\ (done <> [] -> taken_in_order ms (done ++ left)) /\ (x = Finished -> left = [])
    /\ Forall (module_fits (command_of a) ms) done
    /\ (well_founded_input names ms -> (S (length ms + length (definitions ms)) <= fuel)%nat ->
         taken_in_order ms (done ++ left) /\ (left = [] \/ exists m rest, left = m :: rest /\ ~ module_fits (command_of a) ms m))
    /\ (forall m f, In m done -> file_of (command_of a) m f -> exists text, file_text (command_of a) ms m f text)
    /\ (forall l, is_folder t' l <-> is_folder t l \/ In l vs)
    /\ forall l c, file_at t' l c <->
      (exists m f, In m done /\ l = e ++ [f] /\ file_text (command_of a) ms m f c)
      \/ (~ output_place e (command_of a) done l /\ file_at t l c).
Proof.
  intros fuel cwd words t a dir names vs e ms L Hc C Ld F V (Rv & Rn). assert (Hg := paths_grammatical _ _ _ _ F).
  destruct (tree_places fuel cwd words t a dir names ms vs e L Hc C F V Ld) as (files & r & t' & x & R & S & _ & B).
  destruct (B Rv) as (B1 & B2 & _ & B4).
  destruct (left_files names _ fuel ms [] files r Hc Hg R) as (done & left & P & T & K & Fi & Sp & Z & X).
  assert (I : forall m, In m done -> In m ms) by (intros m H; apply (Permutation_in _ (Permutation_sym P)); apply in_or_app; left; exact H).
  assert (Y : forall f c, (exists m, In m done /\ file_text (command_of a) ms m f c) <-> folder_get files f = Some c).
  { intros f c. rewrite (X f c). split; [auto|]. intros [H|(_ & H)]; [exact H|discriminate H]. }
  assert (Q : forall n, In n (map fst files) <-> exists m, In m done /\ file_of (command_of a) m n).
  { intros n. split.
    - intros H. destruct (folder_get files n) as [c|] eqn:G; [|apply get_none in G; contradiction].
      apply Y in G as (m & Hm & Tx). exists m. split; [exact Hm|]. eapply text_file_of. exact Tx.
    - intros (m & Hm & Hf). destruct (in_dec string_dec n (map fst files)) as [H|H]; [exact H|]. exfalso.
      apply get_none in H. destruct (Z m n Hm Hf) as (text & Tx). assert (folder_get files n = Some text) by (apply Y; eauto). congruence. }
  assert (Nt : forall n, In n (map fst files) -> ~ taken t vs e n) by (intros n H; apply Q in H as (m & Hm & Hf); apply (Rn m n (I m Hm) Hf)).
  destruct (B4 Nt) as (Sh & W). exists done, left, t', x. split; [exact S|]. split; [exact P|]. split; [exact T|].
  split; [intros ->; destruct r as [[]|z|]; [apply K; reflexivity|discriminate Sh|discriminate Sh]|]. split; [exact Fi|]. split; [exact Sp|]. split; [exact Z|]. split; [exact B1|].
  intros l c. destruct (in_dec (list_eq_dec string_dec) l (map (fun n => e ++ [n]) (map fst files))) as [H|H].
  - apply in_map_iff in H as (n & <- & Hn).
    assert (O : output_place e (command_of a) done (e ++ [n])) by (apply Q in Hn as (m & Hm & Hf); exists m, n; auto).
    destruct (folder_get files n) as [c0|] eqn:G; [|apply get_none in G; contradiction].
    assert (Fc := W n c0 G). split.
    + intros Fc'. assert (c = c0) as <- by (eapply one_text; eassumption). left.
      apply Y in G as (m & Hm & Tx). exists m, n. auto.
    + intros [(m & f & Hm & E & Tx)|(N & _)]; [|contradiction].
      apply app_inj_tail in E as (_ & <-). apply W. apply Y. eauto.
  - assert (N : ~ output_place e (command_of a) done l).
    { intros (m & n & Hm & Hf & ->). apply H. apply in_map_iff. exists n. split; [reflexivity|]. apply Q. eauto. }
    rewrite (B2 l c) by (intros n Hn ->; apply H; apply in_map_iff; eauto).
    split; [auto|]. intros [(m & f & Hm & -> & Tx)|(_ & U)]; [|exact U].
    destruct N. exists m, f. split; [exact Hm|]. split; [eapply text_file_of; exact Tx|reflexivity].
Qed.
