(** * Proofs about the texts a finished process leaves *)
From Verif Require Import Base PyNum PyStr Ast CCommon GenBinary GenCosmos Main Source Spec_Grammar Spec_Gen Spec_Check Spec_Bundle Spec_Runs Spec_Cosmos Spec_History
  Cli Spec_Cli Status Tree Spec_Tree Spec_Failures Spec_Done Spec_Letters Spec_Target Tree_proofs Tree2_proofs Tree3_proofs Done_proofs
  Exact_proofs Target_proofs.
Open Scope string_scope.
Open Scope list_scope.

Lemma one_text : forall t l c c', file_at t l c -> file_at t l c' -> c = c'.
Proof. unfold file_at. intros. congruence. Qed.

Theorem whole_tree : forall fuel cwd words t t' a dir names vs e ms, command_line words a dir -> config_command names (command_of a) ->
  is_folder t cwd -> leads cwd dir vs e -> Forall2 (path_spells t cwd) (input_paths a) ms ->
  start_in fuel cwd words t = (t', Some Finished) ->
  forall l c, file_at t' l c <->
    (exists m f, In m ms /\ l = e ++ [f] /\ file_text (command_of a) ms m f c)
    \/ (~ output_place e (command_of a) ms l /\ file_at t l c).
Proof.
  intros fuel cwd words t t' a dir names vs e ms L Hc C Ld F S l c.
  destruct (done_run fuel cwd words t t' a dir names vs e ms L Hc C Ld F S) as (files & R & _ & _ & B & W).
  assert (Hg := paths_grammatical _ _ _ _ F).
  assert (Q := done_files names _ _ _ _ Hc Hg R).
  assert (X := whole_folder_exact names _ _ _ _ _ Hc Hg R).
  assert (Y : forall f, (exists m, In m ms /\ file_text (command_of a) ms m f c) <-> folder_get files f = Some c).
  { intros f. rewrite (X f c). split; [auto|]. intros [H|(_ & H)]; [exact H|discriminate H]. }
  destruct (in_dec (list_eq_dec string_dec) l (map (fun n => e ++ [n]) (map fst files))) as [H|H].
  - apply in_map_iff in H as (n & <- & Hn).
    assert (O : output_place e (command_of a) ms (e ++ [n])) by (apply Q in Hn as (m & Hm & Hf); exists m, n; auto).
    destruct (folder_get files n) as [c0|] eqn:G; [|apply get_none in G; contradiction].
    assert (Fc := W n c0 G). split.
    + intros Fc'. assert (c = c0) as <- by (eapply one_text; eassumption). left.
      apply Y in G as (m & Hm & T). exists m, n. auto.
    + intros [(m & f & Hm & E & T)|(N & _)]; [|contradiction].
      apply app_inj_tail in E as (_ & <-). apply W. apply Y. eauto.
  - assert (N : ~ output_place e (command_of a) ms l).
    { intros (m & n & Hm & Hf & ->). apply H. apply in_map_iff. exists n. split; [reflexivity|]. apply Q. eauto. }
    rewrite (B l c) by (intros n Hn ->; apply H; apply in_map_iff; eauto).
    split; [auto|]. intros [(m & f & Hm & -> & T)|(_ & Z)]; [|exact Z].
    destruct H. apply in_map_iff. exists f. split; [reflexivity|].
    destruct (in_dec string_dec f (map fst files)) as [I1|I1]; [exact I1|]. apply get_none in I1.
    assert (folder_get files f = Some c) by (apply Y; eauto). congruence.
Qed.

Theorem whole_same : forall fuel1 cwd1 words1 t1 t1' a1 dir1 vs1 e1 fuel2 cwd2 words2 t2 t2' a2 dir2 vs2 e2 names ms,
  command_line words1 a1 dir1 -> command_line words2 a2 dir2 -> config_command names (command_of a1) -> command_of a1 = command_of a2 ->
  is_folder t1 cwd1 -> leads cwd1 dir1 vs1 e1 -> Forall2 (path_spells t1 cwd1) (input_paths a1) ms ->
  is_folder t2 cwd2 -> leads cwd2 dir2 vs2 e2 -> Forall2 (path_spells t2 cwd2) (input_paths a2) ms ->
  start_in fuel1 cwd1 words1 t1 = (t1', Some Finished) -> start_in fuel2 cwd2 words2 t2 = (t2', Some Finished) ->
  forall f c, output_place e1 (command_of a1) ms (e1 ++ [f]) -> (file_at t1' (e1 ++ [f]) c <-> file_at t2' (e2 ++ [f]) c).
Proof.
  intros fuel1 cwd1 words1 t1 t1' a1 dir1 vs1 e1 fuel2 cwd2 words2 t2 t2' a2 dir2 vs2 e2 names ms L1 L2 Hc E C1 D1 F1 C2 D2 F2 S1 S2 f c O.
  assert (Hc2 : config_command names (command_of a2)) by (rewrite <- E; exact Hc).
  assert (O2 : output_place e2 (command_of a2) ms (e2 ++ [f])).
  { destruct O as (m & n & Hm & Hf & X). apply app_inj_tail in X as (_ & <-). exists m, f. rewrite <- E. auto. }
  rewrite (whole_tree _ _ _ _ _ _ _ _ _ _ _ L1 Hc C1 D1 F1 S1), (whole_tree _ _ _ _ _ _ _ _ _ _ _ L2 Hc2 C2 D2 F2 S2), <- E.
  rewrite <- E in O2.
  split; (intros [(m & n & Hm & X & T)|(N & _)]; [|contradiction]); apply app_inj_tail in X as (_ & <-); left; exists m, f; auto.
Qed.

Theorem whole_cosmos : forall fuel cwd words t t' paths mn msgs out dir ms q vs e n, command_line words (ArgsCosmos paths mn msgs out) dir ->
  is_folder t cwd -> Forall2 (path_spells t cwd) paths ms ->
  (if startswith "/" out then q = (out ++ ".txt")%string else in_folder dir (out ++ ".txt") q) -> leads_in cwd q vs e n ->
  no_addresses ms mn (split_commas msgs) ->
  start_in fuel cwd words t = (t', Some Finished) ->
  (forall l, is_folder t' l <-> is_folder t l \/ In l vs)
  /\ forall l c, file_at t' l c <->
    (l = e ++ [n] /\ exists old new, (file_at t l old \/ old = ""%string /\ ~ is_file t l)
       /\ is_telemetry ms mn (split_commas msgs) out new /\ c = (old ++ new)%string)
    \/ (l <> e ++ [n] /\ file_at t l c).
Proof.
  intros fuel cwd words t t' paths mn msgs out dir ms q vs e n L C F Hq Ld Na S.
  assert (Hg := paths_grammatical _ _ _ _ F).
  destruct (tree_cosmos fuel cwd words t paths mn msgs out dir ms q vs e n L C F Hq Ld)
    as [(r & x & _ & Nr & Sh & S')|(text & t2 & x & R & S' & A & B)]; rewrite S in S'; injection S' as <- <-.
  { exfalso. destruct r as [[]|z|]; [congruence|discriminate Sh|discriminate Sh]. }
  destruct (all_or_file t vs) as [X|X].
  { exfalso. destruct (A X) as ((z & Z) & _). discriminate Z. }
  destruct (B X) as (B1 & B2 & B3 & B4). split; [exact B1|].
  assert (Nt : ~ taken t vs e n) by (intros T; destruct (B3 T) as (z & Z); discriminate Z).
  destruct (B4 Nt) as (_ & old & Ho & Hf).
  assert (T : forall new, is_telemetry ms mn (split_commas msgs) out new <-> new = text).
  { intros new. assert (W := target_exact _ _ _ _ _ _ _ Hg Na R (out ++ ".txt")%string).
    assert (G : forall k, folder_get [((out ++ ".txt")%string, text)] (out ++ ".txt")%string = Some k <-> k = text).
    { intros k. cbn [folder_get]. rewrite String.eqb_refl. split; [intros Y; injection Y; auto|intros ->; reflexivity]. }
    split.
    - intros Y. apply G. apply W. left. split; [reflexivity|]. exists new. split; [exact Y|reflexivity].
    - intros ->. assert (Y := proj2 (G text) eq_refl). apply W in Y as [(_ & k & K & Y)|(N & _)]; [|congruence].
      rewrite Y. exact K. }
  intros l c. destruct (list_eq_dec string_dec l (e ++ [n])) as [->|N].
  - split.
    + intros Hc. left. split; [reflexivity|]. exists old, text. split; [exact Ho|]. split; [apply T; reflexivity|]. eapply one_text; eassumption.
    + intros [(_ & o & w & Ho' & Hw & ->)|(N & _)]; [|congruence]. apply T in Hw as ->.
      assert (o = old) as ->; [|exact Hf].
      destruct Ho as [Ho|(-> & Ho)], Ho' as [Ho'|(-> & Ho')]; [eapply one_text; eassumption|exfalso|exfalso|reflexivity].
      * apply Ho'. eexists. exact Ho.
      * apply Ho. eexists. exact Ho'.
  - rewrite (B2 l c) by (intros k [<-|[]]; exact N). split; [auto|]. intros [(E & _)|(_ & H)]; [contradiction|exact H].
Qed.
