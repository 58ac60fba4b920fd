(** * Proofs about whole runs of the program *)
From Coq Require Import Lia.
From Verif Require Import Base PyStr Ast Size Processor Bundle CCommon GenBinary Main Source Spec_Grammar Cli Spec_Cli
  Lib_proofs Cosmos_text_proofs Spec_Source Spec_Gen Spec_Files Spec_Check Spec_Bundle Spec_Order Spec_Size Spec_Layout Spec_Cfs
  Spec_Binary Spec_Runs Spec_Cosmos Spec_Cosmos_runs Source_proofs Run_proofs Files_proofs Runs_proofs Runs2_proofs Cosmos_runs_proofs
  Spec_History History_runs_proofs Cli_proofs.
Open Scope string_scope.

Lemma slash_iff : forall s, ends_with_slash s = true <-> exists d, s = d ++ "/".
Proof.
  induction s as [|c s IH].
  - split; [discriminate|]. intros ([|] & H); discriminate.
  - destruct s as [|c' s].
    + cbn [ends_with_slash]. rewrite Ascii.eqb_eq. split; [intros ->; exists ""; reflexivity|].
      intros ([|x [|y d]] & H); cbn [append] in H; [injection H as ->; reflexivity|discriminate..].
    + change (ends_with_slash (String c (String c' s))) with (ends_with_slash (String c' s)). rewrite IH. split.
      * intros (d & ->). exists (String c d). reflexivity.
      * intros ([|x d] & H); cbn [append] in H; [discriminate|]. injection H as _ H. eauto.
Qed.
Lemma join_in : forall dir n, ~ prefix_of "/" n -> forall q, in_folder dir n q <-> q = os_path_join dir n.
Proof.
  intros dir n N q. unfold os_path_join, in_folder.
  replace (startswith "/" n) with false by (symmetry; apply Bool.not_true_is_false; intros H; apply startswith_iff in H; auto).
  destruct (String.eqb_spec dir "") as [->|D]; cbn [orb].
  - split; [|auto]. intros [(_ & ->)|(H & _)]; [reflexivity|congruence].
  - destruct (ends_with_slash dir) eqn:E.
    + apply slash_iff in E. split; [|auto]. intros [(_ & ->)|(_ & H & _)]; [reflexivity|].
      destruct E as (d & E). destruct (H d E).
    + split.
      * intros [([H|H] & _)|(_ & _ & ->)]; [congruence|apply slash_iff in H; congruence|reflexivity].
      * intros ->. right. split; [exact D|]. split; [|reflexivity]. intros d H.
        assert (K : ends_with_slash dir = true) by (apply slash_iff; eauto). congruence.
Qed.
Lemma append_inj_l : forall a b c : string, a ++ b = a ++ c -> b = c.
Proof. induction a as [|x a IH]; intros b c H; [exact H|]. cbn [append] in H. injection H as H. auto. Qed.
Lemma join_inj : forall dir n m, ~ prefix_of "/" n -> ~ prefix_of "/" m -> os_path_join dir n = os_path_join dir m -> n = m.
Proof.
  intros dir n m N M. unfold os_path_join.
  replace (startswith "/" n) with false by (symmetry; apply Bool.not_true_is_false; intros H; apply startswith_iff in H; auto).
  replace (startswith "/" m) with false by (symmetry; apply Bool.not_true_is_false; intros H; apply startswith_iff in H; auto).
  destruct (_ || _); intros H; [exact (append_inj_l _ _ _ H)|]. apply append_inj_l in H. exact (append_inj_l "/" _ _ H).
Qed.
Lemma plain_relative : forall n, plain_name n -> ~ prefix_of "/" n.
Proof.
  intros n P (r & ->). destruct (P "/"%char) as [H|[H|[H|[H|H]]]]; [left; reflexivity|discriminate..].
Qed.

Lemma write_all_fresh : forall files fs, NoDup (map fst fs ++ map fst files) -> folder_write_all files fs = (fs ++ files)%list.
Proof.
  unfold folder_write_all. induction files as [|[k v] files IH]; intros fs N; cbn [fold_left]; [symmetry; apply app_nil_r|].
  rewrite IH.
  - unfold folder_write. cbn [fst snd]. rewrite Cdata_proofs.dict_set_fresh; [rewrite <- app_assoc; reflexivity|].
    intros I. cbn [map fst] in N. apply NoDup_remove_2 in N. apply N. apply in_or_app. auto.
  - unfold folder_write. cbn [fst snd]. rewrite Cdata_proofs.dict_set_fresh.
    + rewrite map_app, <- app_assoc. exact N.
    + intros I. cbn [map fst] in N. apply NoDup_remove_2 in N. apply N. apply in_or_app. auto.
Qed.

Lemma get_in : forall (files : folder) n c, folder_get files n = Some c -> In (n, c) files.
Proof.
  induction files as [|[k v] files IH]; intros n c H; [discriminate|]. cbn [folder_get] in H.
  destruct (String.eqb_spec k n) as [->|_]; [injection H as ->; left; reflexivity|right; auto].
Qed.
Lemma in_get : forall (files : folder) n c, NoDup (map fst files) -> In (n, c) files -> folder_get files n = Some c.
Proof.
  induction files as [|[k v] files IH]; intros n c N I; [destruct I|]. cbn [folder_get map fst] in *.
  inversion N as [|? ? N1 N2]; subst. destruct I as [I|I].
  - injection I as -> ->. rewrite String.eqb_refl. reflexivity.
  - destruct (String.eqb_spec k n) as [->|_]; [|auto]. destruct N1. apply (in_map fst) in I. exact I.
Qed.

(** The files of a run into an empty folder. *)
Lemma run_empty : forall names cmd fuel input, config_command names cmd -> Forall (fun m => grammatical m = true) input ->
  exists files r, run fuel cmd input [] = (files, r) /\ NoDup (map fst files) /\ forall n, In n (map fst files) -> plain_name n.
Proof.
  intros names cmd fuel input Hc Hg. rewrite (run_config names) by exact Hc.
  destruct (build_from_config names input) as [b|e|] eqn:E.
  - destruct (generate_modules fuel b (module_files fuel cmd b)) as [files r] eqn:G.
    assert (Gn : generation fuel b (files, r)).
    { rewrite <- G. destruct Hc as [->|[->|(e & ->)]]; [left|right; left|right; right; exists e]; reflexivity. }
    assert (N := files_nodup _ _ _ _ _ _ Hg E Gn). exists files, r. split.
    + unfold with_bundle, write_outcome. cbn [fst snd]. f_equal. exact (write_all_fresh files [] N).
    + split; [exact N|]. intros n. exact (files_plain _ _ _ _ _ _ n Hg E Gn).
  - exists [], (Err e). repeat split; [constructor|intros n []].
  - exists [], OutOfFuel. repeat split; [constructor|intros n []].
Qed.

Lemma place_config : forall a dir out fsys, is_cosmos a = false ->
  place a dir out fsys = folder_write_all (map (fun f => (os_path_join dir (fst f), snd f)) out) fsys.
Proof.
  intros a dir out. unfold place, folder_write_all. induction out as [|f out IH]; intros fsys H; [reflexivity|].
  cbn [fold_left map]. rewrite H in *. apply IH. reflexivity.
Qed.

Theorem start_stops : forall fuel words fsys, (~ exists a dir, command_line words a dir) -> start fuel words fsys = (fsys, None).
Proof.
  intros fuel words fsys N. unfold start. destruct (parse_args words) as [[a dir]|] eqn:P; [|reflexivity].
  destruct N. exists a, dir. apply parse_args_iff. exact P.
Qed.
Theorem start_goes : forall fuel words fsys a dir, command_line words a dir ->
  start fuel words fsys = (place a dir (fst (main fuel a fsys [])) fsys, Some (snd (main fuel a fsys []))).
Proof.
  intros fuel words fsys a dir H. unfold start. rewrite (proj2 (parse_args_iff _ _ _) H).
  destruct (main fuel a fsys []); reflexivity.
Qed.
Theorem start_unreadable : forall fuel words fsys a dir, command_line words a dir ->
  (~ exists ms, Forall2 (file_spells fsys) (input_paths a) ms) -> exists e, start fuel words fsys = (fsys, Some (Err e)).
Proof.
  intros fuel words fsys a dir H N. rewrite (start_goes _ _ _ _ _ H).
  destruct (main_unreadable fuel a fsys [] N) as (e & ->). exists e. reflexivity.
Qed.

Theorem start_config : forall fuel words fsys a dir names ms, command_line words a dir ->
  config_command names (command_of a) -> Forall2 (file_spells fsys) (input_paths a) ms ->
  exists files r fsys', run fuel (command_of a) ms [] = (files, r) /\ start fuel words fsys = (fsys', Some r)
    /\ (forall n c, folder_get files n = Some c -> plain_name n
          /\ forall q, in_folder dir n q -> folder_get fsys' q = Some c)
    /\ (forall q, (forall n c, folder_get files n = Some c -> ~ in_folder dir n q) -> folder_get fsys' q = folder_get fsys q).
Proof.
  intros fuel words fsys a dir names ms H Hc F. rewrite (start_goes _ _ _ _ _ H), (main_run _ _ _ _ _ F).
  destruct (run_empty names _ fuel ms Hc (files_grammatical _ _ _ F)) as (files & r & E & N & P). rewrite E. cbn [fst snd].
  assert (C : is_cosmos a = false).
  { destruct a; try reflexivity. destruct Hc as [Hc|[Hc|(e & Hc)]]; discriminate. }
  exists files, r, (place a dir files fsys). split; [reflexivity|]. split; [reflexivity|].
  rewrite (place_config _ _ _ _ C). set (placed := map _ files).
  assert (NP : NoDup (map fst placed)).
  { unfold placed. rewrite map_map. cbn [fst]. clear -N P. induction files as [|[k v] files IH]; [constructor|].
    cbn [map fst] in *. inversion N as [|? ? N1 N2]; subst. constructor; [|apply IH; [exact N2|intros n I; apply P; right; exact I]].
    intros I. apply in_map_iff in I as ([k' v'] & I & J). cbn [fst] in I. apply N1.
    apply join_inj in I; [|apply plain_relative, P; right; apply (in_map fst _ _ J)|apply plain_relative, P; left; reflexivity].
    subst k'. apply (in_map fst _ _ J). }
  split.
  - intros n c G. apply get_in in G. assert (Pn := P n (in_map fst _ _ G)). split; [exact Pn|]. intros q Q.
    apply (join_in dir n (plain_relative _ Pn)) in Q as ->. rewrite folder_get_all.
    rewrite (dict_get_NoDup _ (os_path_join dir n) c placed NP); [reflexivity|].
    unfold placed. apply (in_map (fun f => (os_path_join dir (fst f), snd f)) _ _ G).
  - intros q Q. rewrite folder_get_all. destruct (dict_get q placed) as [c|] eqn:D; [|reflexivity]. exfalso.
    apply dict_get_In in D. unfold placed in D. apply in_map_iff in D as ([n c'] & D & I). cbn [fst snd] in D. injection D as D ->.
    apply (Q n c); [apply in_get; assumption|]. apply join_in; [apply plain_relative, P, (in_map fst _ _ I)|]. auto.
Qed.

Lemma cosmos_run_empty : forall fuel m msgs t input,
  (exists text, forall fs, run fuel (GenerateCosmos m msgs t) input fs = (folder_append (t ++ ".txt", text) fs, Ok tt))
  \/ exists r, r <> Ok tt /\ forall fs, run fuel (GenerateCosmos m msgs t) input fs = (fs, r).
Proof.
  intros fuel m msgs t input. cbn [run]. unfold with_bundle. destruct (build_from_cosmos_config input) as [b|e|].
  - unfold GenCosmos.generate_cosmos. destruct (GenCosmos.cosmos_packets fuel b m msgs) as [l|e|]; cbn [bind].
    + left. eexists. intros fs. reflexivity.
    + right. exists (Err e). split; [discriminate|reflexivity].
    + right. exists OutOfFuel. split; [discriminate|reflexivity].
  - right. exists (Err e). split; [discriminate|reflexivity].
  - right. exists OutOfFuel. split; [discriminate|reflexivity].
Qed.

Theorem start_cosmos : forall fuel words fsys paths m msgs out dir ms, command_line words (ArgsCosmos paths m msgs out) dir ->
  Forall2 (file_spells fsys) paths ms ->
  (exists text fsys', run fuel (GenerateCosmos m (split_commas msgs) out) ms [] = ([(out ++ ".txt", text)], Ok tt)
     /\ start fuel words fsys = (fsys', Some (Ok tt))
     /\ forall q, (if startswith "/" out then q = out ++ ".txt" else in_folder dir (out ++ ".txt") q) ->
          folder_get fsys' q = Some (match folder_get fsys q with Some old => old | None => "" end ++ text)
          /\ forall q', q' <> q -> folder_get fsys' q' = folder_get fsys q')
  \/ exists r, r <> Ok tt /\ run fuel (GenerateCosmos m (split_commas msgs) out) ms [] = ([], r)
     /\ start fuel words fsys = (fsys, Some r).
Proof.
  intros fuel words fsys paths m msgs out dir ms H F. rewrite (start_goes _ _ _ _ _ H).
  rewrite (main_run fuel (ArgsCosmos paths m msgs out) fsys [] ms F). cbn [command_of].
  destruct (cosmos_run_empty fuel m (split_commas msgs) out ms) as [(text & R)|(r & N & R)]; rewrite R; cbn [fst snd].
  - left. exists text. eexists. split; [reflexivity|]. split; [reflexivity|]. intros q Q.
    assert (E : q = os_path_join dir (out ++ ".txt")).
    { destruct (startswith "/" out) eqn:S.
      - rewrite Q. unfold os_path_join. replace (startswith "/" (out ++ ".txt")) with true; [reflexivity|]. symmetry.
        apply startswith_iff. apply startswith_iff in S as (x & ->). exists (x ++ ".txt"). reflexivity.
      - apply join_in in Q; [exact Q|]. intros (x & X). destruct out as [|c out]; cbn [append] in X; [discriminate|].
        injection X as -> _.
        rewrite (proj2 (startswith_iff "/" (String "/" out)) (ex_intro _ out eq_refl)) in S. discriminate. }
    unfold place. cbn [folder_append folder_get dict_set fold_left is_cosmos fst snd]. rewrite <- E.
    destruct (Cosmos_text_proofs.folder_append_get (q, text) fsys) as (A & B). cbn [fst snd] in A, B. split; [exact A|exact B].
  - right. exists r. split; [exact N|]. split; reflexivity.
Qed.

(** Success. *)
Theorem start_success : forall fuel words fsys a dir, command_line words a dir ->
  (snd (start fuel words fsys) = Some (Ok tt) <->
   exists ms, Forall2 (file_spells fsys) (input_paths a) ms /\ snd (run fuel (command_of a) ms []) = Ok tt).
Proof.
  intros fuel words fsys a dir H. rewrite (start_goes _ _ _ _ _ H). cbn [snd]. split.
  - intros E. injection E as E. destruct (read_files fsys (input_paths a)) as [ts|e|] eqn:R.
    + destruct (map_result read_text ts) as [ms|e|] eqn:T.
      * exists ms. assert (F : Forall2 (file_spells fsys) (input_paths a) ms) by (apply files_modules; eauto).
        split; [exact F|]. rewrite (main_run _ _ _ _ _ F) in E. exact E.
      * unfold main, run_texts, on_modules in E. rewrite R, T in E. discriminate.
      * unfold main, run_texts, on_modules in E. rewrite R, T in E. discriminate.
    + unfold main in E. rewrite R in E. discriminate.
    + unfold main in E. rewrite R in E. discriminate.
  - intros (ms & F & E). rewrite (main_run _ _ _ _ _ F), E. reflexivity.
Qed.

Lemma slash_char : forall n x y, n = x ++ "/" ++ y -> In "/"%char (list_ascii_of_string n).
Proof. intros n x y ->. induction x as [|c x IH]; cbn; auto. Qed.

Theorem start_in_folder : forall fuel words fsys a dir fsys' r q, command_line words a dir ->
  (forall paths m msgs out, a = ArgsCosmos paths m msgs out -> ~ exists x y, out = x ++ "/" ++ y) ->
  start fuel words fsys = (fsys', r) -> folder_get fsys' q <> folder_get fsys q ->
  exists n, in_folder dir n q /\ ~ exists x y, n = x ++ "/" ++ y.
Proof.
  intros fuel words fsys a dir fsys' r q H Ho E D.
  assert (R : exists ms, Forall2 (file_spells fsys) (input_paths a) ms).
  { destruct (main fuel a fsys []) as [fs0 r0] eqn:Em. rewrite (start_goes _ _ _ _ _ H), Em in E.
    destruct (read_files fsys (input_paths a)) as [ts|e|] eqn:R.
    - destruct (map_result read_text ts) as [ms|e|] eqn:T.
      + exists ms. apply files_modules. eauto.
      + unfold main, run_texts, on_modules in Em. rewrite R, T in Em. injection Em as <- <-. injection E as <- <-. destruct D. reflexivity.
      + unfold main, run_texts, on_modules in Em. rewrite R, T in Em. injection Em as <- <-. injection E as <- <-. destruct D. reflexivity.
    - unfold main in Em. rewrite R in Em. injection Em as <- <-. injection E as <- <-. destruct D. reflexivity.
    - unfold main in Em. rewrite R in Em. injection Em as <- <-. injection E as <- <-. destruct D. reflexivity. }
  destruct R as (ms & F).
  assert (K : (exists names, config_command names (command_of a)) \/ exists paths m msgs out, a = ArgsCosmos paths m msgs out).
  { destruct a; [right; eauto 6|left..]; eexists; [left; reflexivity|right; left; reflexivity|right; right; eexists; reflexivity]. }
  destruct K as [(names & Hc)|(paths & m & msgs & out & ->)].
  - destruct (start_config fuel words fsys a dir names ms H Hc F) as (files & r' & fsys2 & _ & E2 & P & U).
    rewrite E in E2. injection E2 as <- _.
    assert (X : exists n c, folder_get files n = Some c /\ in_folder dir n q).
    { destruct (existsb (fun f => String.eqb (os_path_join dir (fst f)) q && match folder_get files (fst f) with Some _ => true | None => false end) files) eqn:B.
      - apply existsb_exists in B as ([n c] & I & B). cbn [fst] in B. apply andb_prop in B as (B1 & B2). apply String.eqb_eq in B1.
        destruct (folder_get files n) as [c'|] eqn:G; [|discriminate]. exists n, c'. split; [exact G|].
        apply join_in; [|auto]. apply plain_relative. exact (proj1 (P n c' G)).
      - exfalso. apply D. apply U. intros n c G Q.
        assert (B' : existsb (fun f => String.eqb (os_path_join dir (fst f)) q && match folder_get files (fst f) with Some _ => true | None => false end) files = true).
        { apply existsb_exists. exists (n, c). split; [apply get_in; exact G|]. cbn [fst]. rewrite G.
          apply join_in in Q; [|apply plain_relative; exact (proj1 (P n c G))]. rewrite Q, String.eqb_refl. reflexivity. }
        congruence. }
    destruct X as (n & c & G & Q). exists n. split; [exact Q|]. intros (x & y & Ex).
    assert (Pn := proj1 (P n c G)). destruct (Pn "/"%char (slash_char _ _ _ Ex)) as [Z|[Z|[Z|[Z|Z]]]]; discriminate.
  - assert (No := Ho _ _ _ _ eq_refl).
    assert (NT : ~ exists x y, out ++ ".txt" = x ++ "/" ++ y).
    { intros (x & y & Ex). apply No. clear -Ex. revert x y Ex. induction out as [|c out IH]; intros x y Ex.
      - exfalso. cbn [append] in Ex. destruct x as [|a [|b [|e [|f x]]]]; cbn [append] in Ex; try discriminate;
          repeat (injection Ex as _ Ex || discriminate); destruct x; discriminate.
      - destruct x as [|a x]; cbn [append] in Ex.
        + injection Ex as -> _. exists "", out. reflexivity.
        + injection Ex as -> Ex. destruct (IH x y Ex) as (x' & y' & ->). exists (String a x'), y'. reflexivity. }
    destruct (start_cosmos fuel words fsys paths m msgs out dir ms H F) as [(text & fsys2 & _ & E2 & U)|(r' & _ & _ & E2)];
      rewrite E in E2; injection E2 as <- _; [|congruence].
    exists (out ++ ".txt"). split; [|exact NT].
    assert (NS : ~ prefix_of "/" (out ++ ".txt")).
    { intros (x & X). apply NT. exists "", x. exact X. }
    assert (S : startswith "/" out = false).
    { apply Bool.not_true_is_false. intros S. apply startswith_iff in S as (x & ->). apply No. exists "", x. reflexivity. }
    rewrite S in U. destruct (U (os_path_join dir (out ++ ".txt"))) as (_ & U2); [apply join_in; [exact NS|reflexivity]|].
    apply join_in; [exact NS|]. destruct (string_dec q (os_path_join dir (out ++ ".txt"))) as [Q|Q]; [exact Q|]. destruct D. apply U2. exact Q.
Qed.

Lemma names_command : forall (paths l : list string), l <> [] -> Forall no_comma l -> split_commas (String.concat "," l) = l.
Proof. intros paths l N F. apply split_commas_iff. auto. Qed.

Theorem start_c : forall words fsys paths names dir, names <> [] -> Forall no_comma names ->
  command_line words (ArgsC paths (String.concat "," names)) dir ->
  (forall fuel, snd (start fuel words fsys) = Some (Ok tt) ->
     exists ms, Forall2 (file_spells fsys) paths ms /\ processable names ms)
  /\ (forall ms, Forall2 (file_spells fsys) paths ms -> processable names ms ->
      forall fuel, (S (length ms + length (definitions ms)) <= fuel)%nat -> snd (start fuel words fsys) = Some (Ok tt)).
Proof.
  intros words fsys paths names dir N C L. assert (S := names_command paths names N C). split.
  - intros fuel E. apply (start_success _ _ _ _ _ L) in E as (ms & F & E). cbn [input_paths command_of] in F, E. rewrite S in E.
    exists ms. split; [exact F|]. exact (proj1 (c_run_iff names ms (files_grammatical _ _ _ F) []) fuel E).
  - intros ms F P fuel B. apply (start_success _ _ _ _ _ L). exists ms. split; [exact F|]. cbn [command_of]. rewrite S.
    exact (proj2 (c_run_iff names ms (files_grammatical _ _ _ F) []) P fuel B).
Qed.
Theorem start_cfs : forall words fsys paths names dir, names <> [] -> Forall no_comma names ->
  command_line words (ArgsCfs paths (String.concat "," names)) dir ->
  (forall fuel, snd (start fuel words fsys) = Some (Ok tt) ->
     exists ms, Forall2 (file_spells fsys) paths ms /\ processable names ms /\ cfs_processable ms)
  /\ (forall ms, Forall2 (file_spells fsys) paths ms -> processable names ms -> cfs_processable ms ->
      forall fuel, (S (length ms + length (definitions ms)) <= fuel)%nat -> snd (start fuel words fsys) = Some (Ok tt)).
Proof.
  intros words fsys paths names dir N C L. assert (S := names_command paths names N C). split.
  - intros fuel E. apply (start_success _ _ _ _ _ L) in E as (ms & F & E). cbn [input_paths command_of] in F, E. rewrite S in E.
    exists ms. split; [exact F|]. exact (proj1 (cfs_run_iff names ms (files_grammatical _ _ _ F) []) fuel E).
  - intros ms F P P' fuel B. apply (start_success _ _ _ _ _ L). exists ms. split; [exact F|]. cbn [command_of]. rewrite S.
    exact (proj2 (cfs_run_iff names ms (files_grammatical _ _ _ F) []) P P' fuel B).
Qed.
Theorem start_binary : forall words fsys paths names e dir, names <> [] -> Forall no_comma names ->
  command_line words (ArgsBinary paths (String.concat "," names) e) dir ->
  (forall fuel, snd (start fuel words fsys) = Some (Ok tt) ->
     exists ms, Forall2 (file_spells fsys) paths ms /\ processable names ms /\ binary_processable e ms)
  /\ (forall ms, Forall2 (file_spells fsys) paths ms -> processable names ms -> binary_processable e ms ->
      forall fuel, (S (length ms + length (definitions ms)) <= fuel)%nat -> snd (start fuel words fsys) = Some (Ok tt)).
Proof.
  intros words fsys paths names e dir N C L. assert (S := names_command paths names N C). split.
  - intros fuel E. apply (start_success _ _ _ _ _ L) in E as (ms & F & E). cbn [input_paths command_of] in F, E. rewrite S in E.
    exists ms. split; [exact F|]. exact (proj1 (binary_run_iff names ms (files_grammatical _ _ _ F) e []) fuel E).
  - intros ms F P P' fuel B. apply (start_success _ _ _ _ _ L). exists ms. split; [exact F|]. cbn [command_of]. rewrite S.
    exact (proj2 (binary_run_iff names ms (files_grammatical _ _ _ F) e []) P P' fuel B).
Qed.
Theorem start_cosmos_iff : forall words fsys paths m msgs out dir, msgs <> [] -> Forall no_comma msgs ->
  command_line words (ArgsCosmos paths m (String.concat "," msgs) out) dir ->
  (forall fuel, snd (start fuel words fsys) = Some (Ok tt) ->
     exists ms, Forall2 (file_spells fsys) paths ms /\ cosmos_runs m msgs ms)
  /\ (forall ms, Forall2 (file_spells fsys) paths ms -> cosmos_runs m msgs ms ->
      exists F, forall fuel, (F <= fuel)%nat -> snd (start fuel words fsys) = Some (Ok tt)).
Proof.
  intros words fsys paths m msgs out dir N C L. assert (S := names_command paths msgs N C). split.
  - intros fuel E. apply (start_success _ _ _ _ _ L) in E as (ms & F & E). cbn [input_paths command_of] in F, E. rewrite S in E.
    exists ms. split; [exact F|].
    destruct (run fuel (GenerateCosmos m msgs out) ms []) as [fs' r] eqn:R. cbn [snd] in E. subst r.
    exact (proj1 (cosmos_runs_iff m msgs out ms [] (files_grammatical _ _ _ F)) fuel fs' R).
  - intros ms F P.
    destruct (proj2 (cosmos_runs_iff m msgs out ms [] (files_grammatical _ _ _ F)) P) as (X & HX).
    exists X. intros fuel B. apply (start_success _ _ _ _ _ L). exists ms. split; [exact F|]. cbn [command_of]. rewrite S.
    destruct (HX fuel B) as (fs' & ->). reflexivity.
Qed.
