(** * Proofs about finished runs *)
From Coq Require Import Permutation Lia.
From Verif Require Import Base PyNum PyStr Ast Processor Bundle CCommon GenBinary Main Source Spec_Grammar Spec_Gen Spec_Check Spec_Bundle Spec_Order
  Spec_Files Spec_Size Spec_Layout Spec_Cfs Spec_Binary Spec_Runs Spec_Cosmos Spec_History
  Cli Spec_Cli Tree Lib_proofs Field_proofs Bundle_proofs Order_proofs Run_proofs Files_proofs Disk_proofs Runs_proofs Runs2_proofs History_runs_proofs
  Status Status_proofs Start_proofs Tree2_proofs Tree3_proofs Spec_Tree Spec_Failures Failures_proofs Spec_Done.
Open Scope string_scope.
Open Scope list_scope.

(** ** The files of a finished run *)
Lemma get_none : forall (fs : folder) n, folder_get fs n = None <-> ~ In n (map fst fs).
Proof.
  induction fs as [|[k c] fs IH]; intros n; cbn [folder_get map fst In]; [tauto|].
  destruct (String.eqb k n) eqn:E.
  - apply String.eqb_eq in E. split; [discriminate|tauto].
  - apply String.eqb_neq in E. rewrite IH. tauto.
Qed.

Lemma done_files : forall names cmd fuel input files, config_command names cmd ->
  Forall (fun m => grammatical m = true) input -> run fuel cmd input [] = (files, Ok tt) ->
  forall n, In n (map fst files) <-> exists m, In m input /\ file_of cmd m n.
Proof.
  intros names cmd fuel input files Hc Hg R n.
  destruct (run_ok_modules _ _ _ _ _ _ Hc R) as (b & l & fss & Hb & Hl & Hm & E).
  destruct (order_sound _ _ _ _ _ Hb Hl) as (P & _).
  assert (C : config names input b) by (split; assumption).
  apply map_result_ok in Hm.
  assert (Q : In n (map fst files) <-> In n (map fst (concat fss))).
  { assert (D : forall s, folder_get files s = dict_get s (concat fss)).
    { intros s. rewrite E, folder_get_all. destruct (dict_get s (concat fss)); reflexivity. }
    destruct (in_dec string_dec n (map fst files)) as [H|H], (in_dec string_dec n (map fst (concat fss))) as [H'|H']; try tauto; exfalso.
    - apply (proj2 (dict_get_None _ _ _)) in H'. rewrite <- (D n) in H'. apply get_none in H'. auto.
    - apply get_none in H. rewrite (D n) in H. apply dict_get_None in H. auto. }
  rewrite Q. split.
  - intros H. apply in_map_iff in H as (x & <- & H). apply in_concat in H as (fl & Hfl & Hx).
    destruct (Forall2_in_r _ _ _ _ _ _ Hm Hfl) as (bm & Hbm & Hf). assert (Hb' := Permutation_in _ P Hbm).
    destruct (of_input _ _ _ _ C Hb') as (m & Hin & S). exists m. split; [exact Hin|].
    apply (one_files names input cmd Hg Hc b Hb bm m Hb' S fuel fl Hf). apply in_map. exact Hx.
  - intros (m & Hin & Hf). destruct (in_input _ _ _ _ C Hin) as (bm & Hbm & S).
    destruct (Forall2_in_l _ _ _ _ _ _ Hm (Permutation_in _ (Permutation_sym P) Hbm)) as (fl & Hfl & Hx).
    apply (one_files names input cmd Hg Hc b Hb bm m Hbm S fuel fl Hx) in Hf.
    apply in_map_iff in Hf as (x & <- & Hf). apply in_map. apply in_concat. eauto.
Qed.

(** ** Input that suits a command *)
Lemma suits_run : forall names cmd ms, config_command names cmd -> Forall (fun m => grammatical m = true) ms ->
  (forall fuel fs, snd (run fuel cmd ms fs) = Ok tt -> suits cmd ms)
  /\ (suits cmd ms -> forall fuel fs, (S (length ms + length (definitions ms)) <= fuel)%nat -> snd (run fuel cmd ms fs) = Ok tt).
Proof.
  intros names cmd ms [->|[->|(e & ->)]] Hg; cbn [suits]; split.
  - intros fuel fs. apply (proj1 (cfs_run_iff names ms Hg fs)).
  - intros (P & P') fuel fs. apply (proj2 (cfs_run_iff names ms Hg fs) P P').
  - intros fuel fs. apply (proj1 (c_run_iff names ms Hg fs)).
  - intros P fuel fs. apply (proj2 (c_run_iff names ms Hg fs) P).
  - intros fuel fs. apply (proj1 (binary_run_iff names ms Hg e fs)).
  - intros (P & P') fuel fs. apply (proj2 (binary_run_iff names ms Hg e fs) P P').
Qed.

Lemma finished_zero : forall fuel cwd words t a dir, command_line words a dir ->
  (exit_code fuel cwd words t = Some 0%N <-> snd (start_in fuel cwd words t) = Some Finished).
Proof.
  intros fuel cwd words t a dir L. destruct (code_line fuel cwd words t a dir L) as (t' & e & -> & ->). cbn [snd].
  split; intros H; [destruct e; discriminate || reflexivity|injection H as ->; reflexivity].
Qed.

Theorem done_iff : forall cwd words t a dir names vs e, command_line words a dir -> config_command names (command_of a) ->
  is_folder t cwd -> leads cwd dir vs e ->
  (forall fuel, exit_code fuel cwd words t = Some 0%N ->
     exists ms, Forall2 (path_spells t cwd) (input_paths a) ms /\ suits (command_of a) ms /\ room t vs e (command_of a) ms)
  /\ (forall ms, Forall2 (path_spells t cwd) (input_paths a) ms -> suits (command_of a) ms -> room t vs e (command_of a) ms ->
      forall fuel, (S (length ms + length (definitions ms)) <= fuel)%nat -> exit_code fuel cwd words t = Some 0%N).
Proof.
  intros cwd words t a dir names vs e L Hc C Ld. split.
  - intros fuel E. apply (finished_zero fuel cwd words t a dir L) in E.
    apply (tree_finishes fuel cwd words t a dir names vs e L Hc C Ld) in E as (ms & files & F & R & V & N).
    assert (Hg := paths_grammatical _ _ _ _ F). exists ms. split; [exact F|]. split.
    + apply (proj1 (suits_run names _ ms Hc Hg) fuel []). rewrite R. reflexivity.
    + split; [exact V|]. intros m n Hm Hn. apply N. apply (done_files names _ _ _ _ Hc Hg R). eauto.
  - intros ms F S (V & N) fuel B. apply (finished_zero fuel cwd words t a dir L).
    apply (tree_finishes fuel cwd words t a dir names vs e L Hc C Ld).
    assert (Hg := paths_grammatical _ _ _ _ F).
    assert (E := proj2 (suits_run names _ ms Hc Hg) S fuel [] B).
    destruct (run fuel (command_of a) ms []) as [files r] eqn:R. cbn [snd] in E. subst r.
    exists ms, files. split; [exact F|]. split; [exact R|]. split; [exact V|].
    intros n Hn. apply (done_files names _ _ _ _ Hc Hg R) in Hn as (m & Hm & Hn). eauto.
Qed.

Lemma spelled_unique : forall t cwd ps ms ms', Forall2 (path_spells t cwd) ps ms -> Forall2 (path_spells t cwd) ps ms' -> ms = ms'.
Proof.
  intros t cwd ps ms ms' F F'. apply paths_modules in F as (ts & R & T). apply paths_modules in F' as (ts' & R' & T').
  rewrite R in R'. injection R' as <-. rewrite T in T'. injection T' as <-. reflexivity.
Qed.

(** A finished run, in one lemma. *)
Lemma done_run : forall fuel cwd words t t' a dir names vs e ms, command_line words a dir -> config_command names (command_of a) ->
  is_folder t cwd -> leads cwd dir vs e -> Forall2 (path_spells t cwd) (input_paths a) ms ->
  start_in fuel cwd words t = (t', Some Finished) ->
  exists files, run fuel (command_of a) ms [] = (files, Ok tt) /\ room t vs e (command_of a) ms
    /\ adds_folders t t' vs /\ same_but t t' e (map fst files)
    /\ forall n c, folder_get files n = Some c -> file_at t' (e ++ [n]) c.
Proof.
  intros fuel cwd words t t' a dir names vs e ms L Hc C Ld F S.
  assert (E : snd (start_in fuel cwd words t) = Some Finished) by (rewrite S; reflexivity).
  apply (tree_finishes fuel cwd words t a dir names vs e L Hc C Ld) in E as (ms' & files & F' & R & V & N).
  assert (ms = ms') as <- by (eapply spelled_unique; eassumption).
  assert (Hg := paths_grammatical _ _ _ _ F). exists files. split; [exact R|]. split.
  { split; [exact V|]. intros m n Hm Hn. apply N. apply (done_files names _ _ _ _ Hc Hg R). eauto. }
  assert (Vb : bundle_valid names ms).
  { rewrite (run_config names) in R by exact Hc.
    destruct (build_from_config names ms) as [b|x|] eqn:B; try discriminate. apply bundle_accepted_iff; eauto. }
  destruct (tree_places fuel cwd words t a dir names ms vs e L Hc C F Vb Ld) as (files' & r & t2 & x & R' & S' & _ & B).
  rewrite R in R'. injection R' as <- <-. rewrite S in S'. injection S' as <- <-.
  destruct (B V) as (B1 & B2 & _ & B4). destruct (B4 N) as (_ & B5). auto.
Qed.

Theorem done_tree : forall fuel cwd words t t' a dir names vs e ms, command_line words a dir -> config_command names (command_of a) ->
  is_folder t cwd -> leads cwd dir vs e -> Forall2 (path_spells t cwd) (input_paths a) ms ->
  start_in fuel cwd words t = (t', Some Finished) ->
  (forall l, is_folder t' l <-> is_folder t l \/ In l vs)
  /\ (forall l, output_place e (command_of a) ms l -> is_file t' l)
  /\ forall l c, ~ output_place e (command_of a) ms l -> (file_at t' l c <-> file_at t l c).
Proof.
  intros fuel cwd words t t' a dir names vs e ms L Hc C Ld F S.
  destruct (done_run fuel cwd words t t' a dir names vs e ms L Hc C Ld F S) as (files & R & _ & A & B & W).
  assert (Q := done_files names _ _ _ _ Hc (paths_grammatical _ _ _ _ F) R). split; [exact A|]. split.
  - intros l (m & n & Hm & Hn & ->). assert (I : In n (map fst files)) by (apply Q; eauto).
    destruct (folder_get files n) as [c|] eqn:G; [exists c; apply W; exact G|]. exfalso.
    apply get_none in G. auto.
  - intros l c N. apply B. intros n Hn ->. apply N. apply Q in Hn as (m & Hm & Hn). exists m, n. auto.
Qed.

(** ** Running it again *)
Lemma no_both : forall t l, is_folder t l -> ~ is_file t l.
Proof. intros t l (es & E) (c & F). unfold file_at in F. congruence. Qed.

Lemma spelled_apart : forall t t' cwd e cmd ms p m, (forall l, is_folder t l -> is_folder t' l) ->
  (forall l c, ~ output_place e cmd ms l -> (file_at t' l c <-> file_at t l c)) ->
  (forall vs' e' n', leads_in cwd p vs' e' n' -> ~ output_place e cmd ms (e' ++ [n'])) ->
  path_spells t cwd p m -> path_spells t' cwd p m.
Proof.
  intros t t' cwd e cmd ms p m K B N (f & s & (Np & l & ps & n & vs' & e' & St & Nm & Ps & Fl & Fv & N1 & N2 & N3 & Fa) & Tx & Sp).
  exists f, s. split; [|auto]. split; [exact Np|]. exists l, ps, n, vs', e'. repeat (split; [assumption|]).
  split; [auto|]. split; [revert Fv; apply Forall_impl; exact K|]. repeat (split; [assumption|]).
  apply B; [|exact Fa]. apply (N vs' e' n). exists l, ps. auto.
Qed.

Theorem done_again : forall fuel cwd words t t' a dir names vs e ms, command_line words a dir -> config_command names (command_of a) ->
  is_folder t cwd -> leads cwd dir vs e -> Forall2 (path_spells t cwd) (input_paths a) ms -> inputs_apart cwd (input_paths a) e (command_of a) ms ->
  start_in fuel cwd words t = (t', Some Finished) ->
  exists t'', start_in fuel cwd words t' = (t'', Some Finished)
    /\ forall l, (is_folder t'' l <-> is_folder t' l) /\ forall c, (file_at t'' l c <-> file_at t' l c).
Proof.
  intros fuel cwd words t t' a dir names vs e ms L Hc C Ld F Ap S.
  destruct (done_run fuel cwd words t t' a dir names vs e ms L Hc C Ld F S) as (files & R & (Rv & Rn) & A & B & W).
  destruct (done_tree fuel cwd words t t' a dir names vs e ms L Hc C Ld F S) as (_ & _ & B').
  assert (Q := done_files names _ _ _ _ Hc (paths_grammatical _ _ _ _ F) R).
  assert (K : forall l, is_folder t l -> is_folder t' l) by (intros l Hl; apply A; auto).
  assert (C' : is_folder t' cwd) by auto.
  assert (F' : Forall2 (path_spells t' cwd) (input_paths a) ms).
  { clear - F Ap K B'. unfold inputs_apart in Ap. set (cmd := command_of a) in *. clearbody cmd.
    set (all := ms) in Ap, B'. clearbody all. induction F as [|p m ps ms H F IH]; constructor.
    - apply (spelled_apart t t' cwd e cmd all p m K B'); [|exact H]. intros vs' e' n'. apply Ap. left. reflexivity.
    - apply IH. intros q vs' e' n' Hq. apply Ap. right. exact Hq. }
  assert (E : snd (start_in fuel cwd words t') = Some Finished).
  { apply (tree_finishes fuel cwd words t' a dir names vs e L Hc C' Ld). exists ms, files. split; [exact F'|]. split; [exact R|]. split.
    - intros v Hv. apply no_both. apply A. auto.
    - intros n Hn [T|T].
      + apply A in T. apply Q in Hn as (m & Hm & Hn). apply (Rn m n Hm Hn). exact T.
      + apply Q in Hn as (m & Hm & Hn). apply (Rn m n Hm Hn). right. exact T. }
  destruct (start_in fuel cwd words t') as [t'' x] eqn:S'. cbn [snd] in E. subst x. exists t''. split; [reflexivity|].
  destruct (done_run fuel cwd words t' t'' a dir names vs e ms L Hc C' Ld F' S') as (files' & R' & _ & A' & B2 & W').
  rewrite R in R'. injection R' as <-. intros l. split.
  - rewrite (A' l). split; [intros [H|H]; [exact H|apply A; auto]|auto].
  - intros c. destruct (in_dec string_dec (last l "") (map fst files)) as [I|I].
    + destruct (list_eq_dec string_dec l (e ++ [last l ""])) as [D|D].
      * destruct (folder_get files (last l "")) as [d|] eqn:G.
        -- apply W in G as G1. apply W' in G as G2. rewrite <- D in G1, G2. unfold file_at in *. rewrite G1, G2. tauto.
        -- exfalso. apply get_none in G. auto.
      * apply B2. intros n Hn ->. apply D. rewrite last_last. reflexivity.
    + apply B2. intros n Hn ->. apply I. rewrite last_last. exact Hn.
Qed.

(** ** cosmos *)
Theorem done_cosmos : forall cwd words t paths m msgs out dir q vs e n, command_line words (ArgsCosmos paths m msgs out) dir ->
  is_folder t cwd -> (if startswith "/" out then q = (out ++ ".txt")%string else in_folder dir (out ++ ".txt") q) -> leads_in cwd q vs e n ->
  (forall fuel, exit_code fuel cwd words t = Some 0%N ->
     exists ms, Forall2 (path_spells t cwd) paths ms /\ cosmos_runs m (split_commas msgs) ms
       /\ (forall v, In v vs -> ~ is_file t v) /\ ~ taken t vs e n)
  /\ (forall ms, Forall2 (path_spells t cwd) paths ms -> cosmos_runs m (split_commas msgs) ms ->
      (forall v, In v vs -> ~ is_file t v) -> ~ taken t vs e n ->
      exists F, forall fuel, (F <= fuel)%nat -> exit_code fuel cwd words t = Some 0%N).
Proof.
  intros cwd words t paths m msgs out dir q vs e n L C Hq Ld.
  assert (Oe : ~ os_error Finished) by (intros (x & X); discriminate).
  assert (Ns : forall r, r <> Ok tt -> ~ shows r Finished) by (intros [[]|z|] N X; [congruence|discriminate X|discriminate X]).
  split.
  - intros fuel E. apply (finished_zero fuel cwd words t _ dir L) in E.
    assert (Rd : (exists ms, Forall2 (path_spells t cwd) paths ms) \/ ~ exists ms, Forall2 (path_spells t cwd) paths ms).
    { destruct (read_inputs t cwd paths) as [ts|x] eqn:R; [destruct (map_result read_text ts) as [ms|x|] eqn:T|].
      - left. exists ms. apply paths_modules. eauto.
      - right. intros (ms & F). apply paths_modules in F as (ts' & R' & T'). congruence.
      - right. intros (ms & F). apply paths_modules in F as (ts' & R' & T'). congruence.
      - right. intros (ms & F). apply paths_modules in F as (ts' & R' & T'). congruence. }
    destruct Rd as [(ms & F)|N].
    2:{ exfalso. destruct (tree_unreadable fuel cwd words t _ dir L N) as (y & Y & Z).
        rewrite Y in E. injection E as ->. destruct Z as [Z|[Z|(z & Z)]]; [auto|discriminate..]. }
    exists ms. split; [exact F|]. assert (Hg := paths_grammatical _ _ _ _ F).
    destruct (tree_cosmos fuel cwd words t paths m msgs out dir ms q vs e n L C F Hq Ld)
      as [(r & x & _ & Nr & Sh & S)|(text & t' & x & R & S & A & B)]; rewrite S in E; injection E as ->.
    { destruct (Ns r Nr Sh). }
    split; [exact (proj1 (cosmos_runs_iff m _ out ms [] Hg) fuel _ R)|].
    destruct (all_or_file t vs) as [X|X]; [destruct (A X); contradiction|]. split; [exact X|]. destruct (B X) as (_ & _ & B3 & _). auto.
  - intros ms F Cr V N. assert (Hg := paths_grammatical _ _ _ _ F).
    destruct (proj2 (cosmos_runs_iff m _ out ms [] Hg) Cr) as (F0 & H). exists F0. intros fuel B0.
    destruct (H fuel B0) as (fs' & R0). apply (finished_zero fuel cwd words t _ dir L).
    destruct (tree_cosmos fuel cwd words t paths m msgs out dir ms q vs e n L C F Hq Ld)
      as [(r & x & R & Nr & _)|(text & t' & x & R & S & A & B)]; rewrite R0 in R; [injection R as _ <-; congruence|].
    destruct (B V) as (_ & _ & _ & B4). destruct (B4 N) as (-> & _). rewrite S. reflexivity.
Qed.
