(** * Proofs about runs on a directory tree *)
From Coq Require Import Lia.
From Verif Require Import Base PyStr Ast Size Processor Bundle CCommon GenCfs GenC GenBinary GenCosmos Main Source Spec_Grammar Spec_Syntax Spec_Source
  Cli Spec_Cli Tree Spec_Tree Lib_proofs Str_proofs Spec_Gen Spec_Files Spec_Check Spec_Bundle Bundle_proofs Field_proofs Source_proofs Run_proofs Ends_proofs Files_proofs
  Cli_proofs Start_proofs Tree_proofs Tree2_proofs.
Open Scope string_scope.
Open Scope list_scope.

(** ** Names of files *)
Definition proper (n : string) : Prop := no_slash n /\ n <> "" /\ n <> "." /\ n <> "..".
Lemma suffix_proper : forall a s, In s [".h"; ".c"; ".bin"; ".txt"] -> (a ++ s)%string <> "" /\ (a ++ s)%string <> "." /\ (a ++ s)%string <> "..".
Proof.
  intros a s I. destruct a as [|x [|y [|z a]]]; cbn in I; repeat (destruct I as [<-|I]; [cbn; repeat split; discriminate|]); destruct I.
Qed.
Lemma plain_no_slash : forall n, plain_name n -> no_slash n.
Proof.
  unfold no_slash. induction n as [|c n IH]; intros P; [reflexivity|]. cbn [all_chars]. apply andb_true_intro. split.
  - apply negb_true_iff. destruct (Ascii.eqb c "/") eqn:E; [|reflexivity]. apply Ascii.eqb_eq in E as ->.
    destruct (P "/"%char) as [H|[H|[H|[H|H]]]]; [left; reflexivity|discriminate..].
  - apply IH. intros d D. apply P. right. exact D.
Qed.
Lemma files_proper : forall names input b fuel files r n,
  Forall (fun m => grammatical m = true) input -> build_from_config names input = Ok b ->
  generation fuel b (files, r) -> In n (map fst files) -> proper n.
Proof.
  intros names input b fuel files r n Hg Hb G Hn. split; [apply plain_no_slash; eapply files_plain; eassumption|].
  assert (C : config names input b) by (split; assumption).
  destruct (generation_files _ _ _ _ _ _ Hb G) as (f & l & fss & Hf & N & I & F & ->).
  rewrite concat_map in Hn. apply in_concat in Hn. destruct Hn as (fs & Hfs & Hn). apply in_map_iff in Hfs.
  destruct Hfs as (fl & <- & Hfl). destruct (Forall2_in_r _ _ _ _ _ _ F Hfl) as (bm & Hbm & H).
  destruct Hf as [->|[->|(e & ->)]].
  - apply cfs_file_names in H. unfold file in *. rewrite H in Hn. destruct Hn as [<-|[<-|[]]]; rewrite string_app_assoc; apply suffix_proper; cbn; auto.
  - apply c_file_names in H. unfold file in *. rewrite H in Hn. destruct Hn as [<-|[<-|[]]]; apply suffix_proper; cbn; auto.
  - destruct (bin_file_names _ _ _ _ _ _ _ C (I _ Hbm) H) as (ks & E & _ & J). unfold file in *. rewrite E in Hn.
    destruct Hn as [<-|Hn]; [apply suffix_proper; cbn; auto|].
    apply in_map_iff in Hn. destruct Hn as (k & <- & Hk). apply suffix_proper; cbn; auto.
Qed.

(** ** Files in a folder *)
Lemma join_names : forall dir n, proper n -> exists ps, names_in (os_path_join dir n) (ps ++ [n])
  /\ filter significant ps = filter significant (split_slash dir) /\ forall cwd, origin cwd (os_path_join dir n) = origin cwd dir.
Proof.
  intros dir n (S & N & _ & _).
  assert (R : startswith "/" n = false).
  { destruct (startswith "/" n) eqn:E; [|reflexivity]. apply startswith_iff in E as (x & ->). discriminate S. }
  unfold os_path_join. rewrite R. destruct (String.eqb_spec dir "") as [->|D]; cbn [orb].
  - exists []. split; [apply split_slash_iff, split_no_slash, S|]. split; [reflexivity|]. intros cwd. unfold origin. cbn [append]. rewrite R. reflexivity.
  - assert (O : forall x cwd, origin cwd (dir ++ x)%string = origin cwd dir).
    { intros x cwd. unfold origin. destruct dir as [|c d]; [congruence|]. cbn [append]. rewrite (first_slash c (d ++ x)%string d). reflexivity. }
    destruct (ends_with_slash dir) eqn:E.
    + apply slash_iff in E as (d & ->). exists (split_slash d). assert (On := O n). rewrite <- string_app_assoc.
      split; [apply split_slash_iff; rewrite split_slash_app, (split_no_slash n S); reflexivity|]. split; [|intros cwd; specialize (On cwd); rewrite <- string_app_assoc in On; exact On].
      change "/"%string with ("/" ++ "")%string. rewrite split_slash_app, filter_app. cbn. rewrite app_nil_r. reflexivity.
    + exists (split_slash dir). split; [apply split_slash_iff; rewrite split_slash_app, (split_no_slash n S); reflexivity|].
      split; [reflexivity|]. exact (O ("/" ++ n)%string).
Qed.

Lemma write_files_spec : forall files cwd dir t, Forall proper (map fst files) -> NoDup (map fst files) ->
  let l := origin cwd dir in let e := dst l (split_slash dir) in
  is_folder t l -> Forall (is_folder t) (vis l (split_slash dir)) ->
  exists t' r, write_files t cwd dir files = (t', r) /\ (forall x, is_folder t' x <-> is_folder t x) /\ same_but t t' e (map fst files)
    /\ ((exists n, In n (map fst files) /\ is_folder t (e ++ [n])) -> r <> None)
    /\ ((forall n, In n (map fst files) -> ~ is_folder t (e ++ [n])) -> r = None /\ forall n c, In (n, c) files -> file_at t' (e ++ [n]) c).
Proof.
  induction files as [|[n c] files IH]; intros cwd dir t P N l e L F; cbn [write_files map fst snd] in *.
  - exists t, None. split; [reflexivity|]. split; [reflexivity|]. split; [intros x y _; reflexivity|]. split; [intros (n & [] & _)|].
    split; [reflexivity|]. intros n c [].
  - inversion P as [|? ? P1 P2]; subst. inversion N as [|? ? N1 N2]; subst.
    destruct (join_names dir n P1) as (ps & Q & E & O). destruct P1 as (S & A & B & C).
    assert (De : dst l ps = e) by (unfold e; rewrite <- (dst_filter ps), E; apply dst_filter).
    assert (Fp : Forall (is_folder t) (vis l ps)).
    { apply Forall_forall. intros x I. assert (J : In x (l :: vis l (split_slash dir))).
      { apply vis_filter. rewrite <- E. apply vis_filter. right. exact I. }
      destruct J as [<-|J]; [exact L|]. rewrite Forall_forall in F. auto. }
    assert (W := write_spec false t cwd (os_path_join dir n) ps n c Q A B C). cbv zeta in W. rewrite (O cwd) in W. fold l in W.
    specialize (W L Fp). rewrite De in W. destruct W as [(D & W)|(D & t1 & old & W & _ & W1 & W2 & W3)]; rewrite W.
    + exists t, (Some IsADirectory). split; [reflexivity|]. split; [reflexivity|]. split; [intros x y _; reflexivity|]. split; [discriminate|].
      intros H. destruct (H n); [left; reflexivity|exact D].
    + destruct (IH cwd dir t1 P2 N2) as (t' & r & R & G1 & G2 & G3 & G4).
      { apply W3, L. }
      { eapply Forall_impl; [|exact F]. intros x. apply W3. }
      fold l in G2, G3, G4. fold e in G2, G3, G4. exists t', r. split; [exact R|]. split; [|split; [|split]].
      * intros x. rewrite G1. apply W3.
      * intros x y H. rewrite (G2 x y) by (intros k K; apply H; right; exact K). apply W2. apply H. left. reflexivity.
      * intros (k & [<-|K] & X); [contradiction|]. apply G3. exists k. split; [exact K|]. apply W3, X.
      * intros H. destruct G4 as (R1 & R2).
        { intros k K X. apply (H k); [right; exact K|]. apply W3, X. }
        split; [exact R1|]. intros k y [K|K]; [|apply R2, K]. injection K as <- <-.
        apply G2; [|exact W1]. intros k K X. apply app_inj_tail in X as (_ & X). subst k. contradiction.
Qed.

Lemma origin_folder : forall t cwd path, is_folder t cwd -> is_folder t (origin cwd path).
Proof.
  intros t cwd path C. unfold origin. destruct (startswith "/" path); [|exact C]. induction cwd as [|x cwd IH] using rev_ind; [exact C|].
  apply IH. apply folder_parent in C. rewrite removelast_last in C. exact C.
Qed.
Lemma dst_removelast : forall t l ps, is_folder t l -> Forall (is_folder t) (vis l ps) -> is_folder t (dst l ps).
Proof. intros t l ps L F. apply (walk_folders t l ps L F). Qed.

Lemma into_folder_spec : forall t cwd dir o vs e, is_folder t cwd -> Forall proper (map fst (fst o)) -> NoDup (map fst (fst o)) ->
  leads cwd dir vs e ->
  exists t' x, into_folder t cwd dir o = (t', x)
    /\ ((exists v, In v vs /\ is_file t v) -> os_error x /\ only_folders t t' vs)
    /\ ((forall v, In v vs -> ~ is_file t v) -> adds_folders t t' vs /\ same_but t t' e (map fst (fst o))
        /\ ((exists n, In n (map fst (fst o)) /\ taken t vs e n) -> os_error x)
        /\ ((forall n, In n (map fst (fst o)) -> ~ taken t vs e n) -> shows (snd o) x
            /\ forall n c, In (n, c) (fst o) -> file_at t' (e ++ [n]) c)).
Proof.
  intros t cwd dir [files res] vs e C P N Ld. cbn [fst snd] in *. apply leads_iff in Ld as (-> & ->). set (l := origin cwd dir).
  assert (L := origin_folder t cwd dir C). fold l in L.
  destruct (make_folder_spec t cwd dir (split_slash dir) C eq_refl) as (O & M1 & M2 & M3). fold l in O, M1, M2, M3.
  unfold into_folder. destruct (make_folder t cwd dir) as [t1 r1] eqn:M. cbn [fst snd] in *. destruct r1 as [x|].
  - exists t1, (OsRaised x). split; [reflexivity|]. split; [intros _; split; [exists x; reflexivity|exact O]|].
    intros H. specialize (M2 H). discriminate.
  - specialize (M3 eq_refl). destruct (write_files_spec files cwd dir t1 P N) as (t2 & r & W & W1 & W2 & W3 & W4).
    { apply O, L. }
    { exact M3. }
    fold l in W2, W3, W4. rewrite W.
    assert (A : forall x, is_folder t1 x <-> is_folder t x \/ In x (vis l (split_slash dir))).
    { intros x. split; [apply O|]. intros [H|H]; [apply O, H|]. rewrite Forall_forall in M3. auto. }
    exists t2, (match r with Some x => OsRaised x | None => ending_of res end). split; [destruct r; reflexivity|]. split.
    + intros (v & I & X). exfalso. apply (M1 (ex_intro _ v (conj I X))). reflexivity.
    + intros _. split; [intros x; rewrite W1; apply A|]. split.
      { intros x y H. rewrite (W2 x y H). apply O. }
      split.
      * intros (n & I & T). destruct r as [e|]; [exists e; reflexivity|]. exfalso. apply W3; [|reflexivity]. exists n. split; [exact I|].
        apply A. exact T.
      * intros H. destruct W4 as (-> & W4); [intros n I X; apply (H n I), A, X|]. split; [destruct res; reflexivity|exact W4].
Qed.

(** ** Runs *)
Lemma run_in_config : forall names fuel t cwd cmd dir input, config_command names cmd ->
  run_in fuel t cwd cmd dir input = on_bundle t (build_from_config names input)
    (fun b => into_folder t cwd dir (generate_modules fuel b (module_files fuel cmd b))).
Proof. intros names fuel t cwd cmd dir input [->|[->|(e & ->)]]; reflexivity. Qed.

Lemma paths_modules : forall t cwd ps ms, Forall2 (path_spells t cwd) ps ms <->
  exists ts, read_inputs t cwd ps = inl ts /\ map_result read_text ts = Ok ms.
Proof.
  intros t cwd ps ms. split.
  - intros H.
    assert (X : exists ts, Forall2 (fun p s => exists f, path_file t cwd p f /\ text_of_file f s) ps ts /\ Forall2 spells ts ms).
    { induction H as [|p m ps ms (f & s & A & B & D) H (ts & I1 & I2)]; [exists []; auto|]. exists (s :: ts). split; constructor; eauto. }
    destruct X as (ts & A & B). exists ts. split; [apply read_inputs_iff, A|apply read_texts_ok, B].
  - intros (ts & R & T). apply read_inputs_iff in R. apply read_texts_ok in T. revert ms T.
    induction R as [|p s ps ts (f & A & B) R IH]; intros ms T; inversion T as [|? m ? ms' T1 T2]; subst; constructor; [exists f, s; auto|auto].
Qed.
Lemma paths_grammatical : forall t cwd ps ms, Forall2 (path_spells t cwd) ps ms -> Forall (fun m => grammatical m = true) ms.
Proof.
  intros t cwd ps ms H. induction H as [|p m ps ms (f & s & _ & _ & S) H IH]; constructor; [|exact IH].
  eapply Grammatical_proofs.spells_grammatical, S.
Qed.
Lemma start_in_reads : forall fuel cwd words t a dir ms, command_line words a dir -> Forall2 (path_spells t cwd) (input_paths a) ms ->
  start_in fuel cwd words t = (fst (run_in fuel t cwd (command_of a) dir ms), Some (snd (run_in fuel t cwd (command_of a) dir ms))).
Proof.
  intros fuel cwd words t a dir ms H F. apply paths_modules in F as (ts & R & T). unfold start_in.
  rewrite (proj2 (parse_args_iff _ _ _) H), R. unfold on_modules. rewrite T. destruct (run_in _ _ _ _ _ _); reflexivity.
Qed.

Theorem tree_stops : forall fuel cwd words t, (~ exists a dir, command_line words a dir) -> start_in fuel cwd words t = (t, None).
Proof.
  intros fuel cwd words t N. unfold start_in. destruct (parse_args words) as [[a dir]|] eqn:P; [|reflexivity].
  destruct N. exists a, dir. apply parse_args_iff. exact P.
Qed.
Lemma rejection_cases : forall c e, rejection c e = Reported \/ exists x, rejection c e = Raised x.
Proof. intros c e; destruct c; cbn; [right; eauto|..]; destruct e; cbn; eauto. Qed.
Theorem tree_unreadable : forall fuel cwd words t a dir, command_line words a dir ->
  (~ exists ms, Forall2 (path_spells t cwd) (input_paths a) ms) ->
  exists x, start_in fuel cwd words t = (t, Some x) /\ (os_error x \/ x = Reported \/ exists e, x = Raised e).
Proof.
  intros fuel cwd words t a dir H N. unfold start_in. rewrite (proj2 (parse_args_iff _ _ _) H).
  destruct (read_inputs t cwd (input_paths a)) as [ts|x] eqn:R.
  - unfold on_modules. destruct (map_result read_text ts) as [ms|e|] eqn:T.
    + destruct N. exists ms. apply paths_modules. eauto.
    + eexists. split; [reflexivity|]. right. apply rejection_cases.
    + eexists. split; [reflexivity|]. right. apply rejection_cases.
  - exists x. split; [reflexivity|]. clear -R. revert R. induction (input_paths a) as [|p ps IH]; cbn [read_inputs]; [discriminate|].
    destruct (path_exists t cwd p); [|intros R; injection R as <-; right; right; eauto].
    destruct (read_path t cwd p) as [s|e]; [|intros R; injection R as <-; left; exists e; reflexivity].
    destruct (decode_file s); [|intros R; injection R as <-; right; right; eauto]. destruct (read_inputs t cwd ps) as [l|e]; [discriminate|]. intros R. injection R as <-. apply IH. reflexivity.
Qed.
Theorem tree_rejected : forall fuel cwd words t a dir names ms, command_line words a dir -> config_command names (command_of a) ->
  Forall2 (path_spells t cwd) (input_paths a) ms -> ~ bundle_valid names ms ->
  exists x, start_in fuel cwd words t = (t, Some x) /\ (x = Reported \/ exists e, x = Raised e).
Proof.
  intros fuel cwd words t a dir names ms H Hc F V. rewrite (start_in_reads _ _ _ _ _ _ _ H F), (run_in_config names) by exact Hc.
  assert (G := paths_grammatical _ _ _ _ F). destruct (build_from_config names ms) as [b|e|] eqn:E.
  - destruct V. apply bundle_accepted_iff; eauto.
  - destruct e; cbn; eauto.
  - destruct (Ends_proofs.ends_config names ms E).
Qed.

Theorem tree_places : forall fuel cwd words t a dir names ms vs e, command_line words a dir -> config_command names (command_of a) ->
  is_folder t cwd -> Forall2 (path_spells t cwd) (input_paths a) ms -> bundle_valid names ms -> leads cwd dir vs e ->
  exists files r t' x, run fuel (command_of a) ms [] = (files, r) /\ start_in fuel cwd words t = (t', Some x)
    /\ ((exists v, In v vs /\ is_file t v) -> os_error x /\ only_folders t t' vs)
    /\ ((forall v, In v vs -> ~ is_file t v) -> adds_folders t t' vs /\ same_but t t' e (map fst files)
        /\ ((exists n, In n (map fst files) /\ taken t vs e n) -> os_error x)
        /\ ((forall n, In n (map fst files) -> ~ taken t vs e n) -> shows r x
            /\ forall n c, folder_get files n = Some c -> file_at t' (e ++ [n]) c)).
Proof.
  intros fuel cwd words t a dir names ms vs e H Hc C F V Ld. rewrite (start_in_reads _ _ _ _ _ _ _ H F), (run_in_config names) by exact Hc.
  assert (Hg := paths_grammatical _ _ _ _ F). rewrite (run_config names) by exact Hc.
  destruct (proj2 (bundle_accepted_iff names ms Hg) V) as (b & E). rewrite E. cbn [with_bundle on_bundle].
  destruct (generate_modules fuel b (module_files fuel (command_of a) b)) as [files r] eqn:G.
  assert (Gn : generation fuel b (files, r)).
  { rewrite <- G. destruct Hc as [->|[->|(x & ->)]]; [left|right; left|right; right; exists x]; reflexivity. }
  assert (N := files_nodup _ _ _ _ _ _ Hg E Gn).
  assert (P : Forall proper (map fst files)).
  { apply Forall_forall. intros n I. eapply files_proper; eassumption. }
  destruct (into_folder_spec t cwd dir (files, r) vs e C P N Ld) as (t' & x & I & A & B). rewrite I. cbn [fst snd] in *.
  exists files, r, t', x. split; [unfold write_outcome; cbn [fst snd]; f_equal; exact (write_all_fresh files [] N)|]. split; [reflexivity|].
  split; [exact A|]. intros X. destruct (B X) as (B1 & B2 & B3 & B4). split; [exact B1|]. split; [exact B2|]. split; [exact B3|].
  intros Y. destruct (B4 Y) as (B5 & B6). split; [exact B5|]. intros n c D. apply B6. apply get_in, D.
Qed.

(** ** cosmos *)
Lemma concat_suffix : forall ps n s, String.concat "/" (ps ++ [n]) = s -> exists a, s = (a ++ n)%string.
Proof.
  induction ps as [|p ps IH]; intros n s H; [exists ""; symmetry; exact H|].
  change ((p :: ps) ++ [n]) with (p :: (ps ++ [n])) in H. destruct (ps ++ [n]) as [|y l] eqn:E; [destruct ps; discriminate|].
  change (String.concat "/" (p :: y :: l)) with (p ++ "/" ++ String.concat "/" (y :: l))%string in H. rewrite <- E in H.
  destruct (IH n _ eq_refl) as (a & A). rewrite A in H. exists (p ++ "/" ++ a)%string. rewrite <- H, !string_app_assoc. reflexivity.
Qed.
Lemma string_rev_app : forall a b, list_ascii_of_string (a ++ b) = list_ascii_of_string a ++ list_ascii_of_string b.
Proof. induction a as [|c a IH]; intros b; [reflexivity|]. cbn. rewrite IH. reflexivity. Qed.
Lemma last_piece : forall ps n a, names_in (a ++ ".txt") (ps ++ [n]) -> proper n.
Proof.
  intros ps n a N. split; [destruct N as (_ & F & _); apply Forall_app in F as (_ & F); inversion F; assumption|].
  assert (X : n <> "" -> exists m c, n = (m ++ String c "")%string).
  { clear. intros H. induction n as [|x n IH]; [congruence|]. destruct n as [|y n]; [exists "", x; reflexivity|].
    destruct IH as (m & c & ->); [discriminate|]. exists (String x m), c. reflexivity. }
  assert (L : exists h, n = (h ++ "t")%string).
  { destruct ps as [|p ps] using rev_ind.
    - destruct N as (_ & _ & N). cbn in N. exists (a ++ ".tx")%string. rewrite N, <- string_app_assoc. reflexivity.
    - clear IHps. destruct N as (_ & F & N). destruct (string_dec n "") as [->|Ne].
      + exfalso. destruct (concat_suffix (ps ++ [p]) "" _ eq_refl) as (x & _).
        assert (Y : exists y, String.concat "/" ((ps ++ [p]) ++ [""]) = (y ++ "/")%string).
        { clear. induction ps as [|q ps (y & Y)]; [exists p; cbn; reflexivity|]. cbn [app] in *.
          destruct ((ps ++ [p]) ++ [""]) as [|z l] eqn:E; [destruct ps; discriminate|].
          change (String.concat "/" (q :: z :: l)) with (q ++ "/" ++ String.concat "/" (z :: l))%string. rewrite Y.
          exists (q ++ "/" ++ y)%string. rewrite !string_app_assoc. reflexivity. }
        destruct Y as (y & Y). rewrite Y in N. apply (f_equal list_ascii_of_string), (f_equal (@rev ascii)) in N.
        rewrite !string_rev_app, !rev_app_distr in N. discriminate.
      + destruct (concat_suffix (ps ++ [p]) n _ N) as (x & Y). destruct (X Ne) as (m & c & ->). exists m. f_equal.
        apply (f_equal list_ascii_of_string), (f_equal (@rev ascii)) in Y.
        rewrite !string_rev_app, !rev_app_distr in Y. cbn in Y. injection Y as <- _. reflexivity. }
  destruct L as (h & ->). destruct h as [|x [|y [|z h]]]; (split; [|split]); cbn [append]; intros H; discriminate H.
Qed.

Lemma into_file_spec : forall t cwd dir base text vs e n, is_folder t cwd -> leads_in cwd (os_path_join dir (base ++ ".txt")) vs e n ->
  exists t' x, into_file t cwd dir ((base ++ ".txt")%string, text) = (t', x)
    /\ ((exists v, In v vs /\ is_file t v) -> os_error x /\ only_folders t t' vs)
    /\ ((forall v, In v vs -> ~ is_file t v) -> adds_folders t t' vs /\ same_but t t' e [n]
        /\ (taken t vs e n -> os_error x)
        /\ (~ taken t vs e n -> x = Finished /\ exists old, (file_at t (e ++ [n]) old \/ old = "" /\ ~ is_file t (e ++ [n]))
            /\ file_at t' (e ++ [n]) (old ++ text)%string)).
Proof.
  intros t cwd dir base text vs e n C (l & ps & S & Q & Ps). apply starts_iff in S. apply passes_iff in Ps as (-> & ->).
  set (q := os_path_join dir (base ++ ".txt")) in *.
  assert (Sx : exists a, q = (a ++ ".txt")%string).
  { unfold q, os_path_join. destruct (startswith "/" (base ++ ".txt")); [eauto|]. destruct (_ || _); [|].
    - exists (dir ++ base)%string. rewrite string_app_assoc. reflexivity.
    - exists (dir ++ "/" ++ base)%string. rewrite !string_app_assoc. reflexivity. }
  destruct Sx as (a & Sx). assert (Pn : proper n) by (apply (last_piece ps n a); rewrite <- Sx; exact Q). destruct Pn as (_ & N1 & N2 & N3).
  destruct (dirname_spec q ps n Q) as (D1 & D2). specialize (D2 cwd N1).
  destruct (make_folder_spec t cwd (dirname q) ps C D1) as (O & M1 & M2 & M3). rewrite D2, <- S in O, M1, M2, M3.
  assert (L : is_folder t l) by (rewrite S; apply origin_folder, C).
  unfold into_file. cbn [fst snd]. fold q. destruct (make_folder t cwd (dirname q)) as [t1 r1] eqn:M. cbn [fst snd] in *. destruct r1 as [x|].
  - exists t1, (OsRaised x). split; [reflexivity|]. split; [intros _; split; [exists x; reflexivity|exact O]|].
    intros H. specialize (M2 H). discriminate.
  - specialize (M3 eq_refl).
    assert (A : forall x, is_folder t1 x <-> is_folder t x \/ In x (vis l ps)).
    { intros x. split; [apply O|]. intros [H|H]; [apply O, H|]. rewrite Forall_forall in M3. auto. }
    assert (W := write_spec true t1 cwd q ps n text Q N1 N2 N3). cbv zeta in W. rewrite <- S in W.
    destruct W as [(D & W)|(D & t2 & old & W & W0 & W1 & W2 & W3)]; [apply O, L|exact M3| |]; rewrite W.
    + exists t1, (OsRaised IsADirectory). split; [reflexivity|]. split; [intros _; split; [eexists; reflexivity|exact O]|].
      intros _. split; [exact A|]. split; [intros x y _; apply O|]. split; [intros _; eexists; reflexivity|]. intros H. destruct H. apply A, D.
    + exists t2, Finished. split; [reflexivity|]. split.
      * intros (v & I & X). exfalso. apply (M1 (ex_intro _ v (conj I X))). reflexivity.
      * intros _. split; [intros x; rewrite W3; apply A|]. split.
        { intros x y H. rewrite W2 by (apply H; left; reflexivity). apply O. }
        split; [intros H; destruct D; apply A, H|]. intros _. split; [reflexivity|]. exists old. split; [|exact W1].
        destruct W0 as [W0|(-> & W0)]; [left; apply O, W0|right]. split; [reflexivity|]. intros (y & Y). apply W0. exists y. apply O, Y.
Qed.

Theorem tree_cosmos : forall fuel cwd words t paths m msgs out dir ms q vs e n, command_line words (ArgsCosmos paths m msgs out) dir ->
  is_folder t cwd -> Forall2 (path_spells t cwd) paths ms ->
  (if startswith "/" out then q = (out ++ ".txt")%string else in_folder dir (out ++ ".txt") q) -> leads_in cwd q vs e n ->
  (exists r x, run fuel (GenerateCosmos m (split_commas msgs) out) ms [] = ([], r) /\ r <> Ok tt /\ shows r x
     /\ start_in fuel cwd words t = (t, Some x))
  \/ exists text t' x, run fuel (GenerateCosmos m (split_commas msgs) out) ms [] = ([((out ++ ".txt")%string, text)], Ok tt)
    /\ start_in fuel cwd words t = (t', Some x)
    /\ ((exists v, In v vs /\ is_file t v) -> os_error x /\ only_folders t t' vs)
    /\ ((forall v, In v vs -> ~ is_file t v) -> adds_folders t t' vs /\ same_but t t' e [n]
        /\ (taken t vs e n -> os_error x)
        /\ (~ taken t vs e n -> x = Finished /\ exists old, (file_at t (e ++ [n]) old \/ old = "" /\ ~ is_file t (e ++ [n]))
            /\ file_at t' (e ++ [n]) (old ++ text)%string)).
Proof.
  intros fuel cwd words t paths m msgs out dir ms q vs e n H C F Q Ld.
  assert (E : q = os_path_join dir (out ++ ".txt")).
  { destruct (startswith "/" out) eqn:S.
    - rewrite Q. unfold os_path_join. replace (startswith "/" (out ++ ".txt")) with true; [reflexivity|]. symmetry.
      apply startswith_iff. apply startswith_iff in S as (x & ->). exists (x ++ ".txt")%string. reflexivity.
    - apply join_in in Q; [exact Q|]. intros (x & X). destruct out as [|c out]; cbn [append] in X; [discriminate|].
      injection X as -> _.
      rewrite (proj2 (startswith_iff "/" (String "/" out)) (ex_intro _ out eq_refl)) in S. discriminate. }
  rewrite E in Ld. clear Q E. rewrite (start_in_reads fuel cwd words t (ArgsCosmos paths m msgs out) dir ms H F). cbn [command_of run_in run with_bundle].
  unfold with_bundle. destruct (build_from_cosmos_config ms) as [b|x|].
  - destruct (generate_cosmos fuel b m (split_commas msgs) out) as [f|x|] eqn:G.
    + right. assert (Ff : fst f = (out ++ ".txt")%string).
      { unfold generate_cosmos in G. destruct (cosmos_packets fuel b m (split_commas msgs)); try discriminate. injection G as <-. reflexivity. }
      destruct f as [f text]. cbn [fst] in Ff. subst f. destruct (into_file_spec t cwd dir out text vs e n C Ld) as (t' & x & I & J). rewrite I.
      exists text, t', x. split; [reflexivity|]. split; [reflexivity|]. exact J.
    + left. exists (Err x), (Raised x). repeat split. discriminate.
    + left. exists OutOfFuel, Hangs. repeat split. discriminate.
  - left. exists (Err x), (Raised x). repeat split. discriminate.
  - left. exists OutOfFuel, Hangs. repeat split. discriminate.
Qed.

(** ** Consequences *)
Lemma leads_exists : forall cwd path, exists vs e, leads cwd path vs e.
Proof. intros cwd path. do 2 eexists. apply leads_iff. split; reflexivity. Qed.
Lemma is_file_dec : forall t v, is_file t v \/ ~ is_file t v.
Proof.
  intros t v. unfold is_file, file_at. destruct (lookup t v) as [[c|es]|]; [left; eauto|right; intros (c & H); discriminate..].
Qed.
Lemma all_or_file : forall t vs, (exists v, In v vs /\ is_file t v) \/ (forall v, In v vs -> ~ is_file t v).
Proof.
  intros t. induction vs as [|v vs [(x & I & F)|H]]; [right; intros v []|left; exists x; split; [right|]; assumption|].
  destruct (is_file_dec t v) as [F|F]; [left; exists v; split; [left; reflexivity|exact F]|]. right. intros x [<-|I]; auto.
Qed.
Lemma taken_dec : forall t vs e n, taken t vs e n \/ ~ taken t vs e n.
Proof.
  intros t vs e n. unfold taken, is_folder. destruct (in_dec place_dec (e ++ [n]) vs) as [I|I]; [auto|].
  destruct (lookup t (e ++ [n])) as [[c|es]|]; [right|left; eauto|right]; (intros [(x & H)|H]; [discriminate|contradiction]).
Qed.
Lemma all_or_taken : forall t vs e ns, (exists n, In n ns /\ taken t vs e n) \/ (forall n, In n ns -> ~ taken t vs e n).
Proof.
  intros t vs e. induction ns as [|v ns [(x & I & F)|H]]; [right; intros v []|left; exists x; split; [right|]; assumption|].
  destruct (taken_dec t vs e v) as [F|F]; [left; exists v; split; [left; reflexivity|exact F]|]. right. intros x [<-|I]; auto.
Qed.

Theorem tree_finishes : forall fuel cwd words t a dir names vs e, command_line words a dir -> config_command names (command_of a) ->
  is_folder t cwd -> leads cwd dir vs e ->
  (snd (start_in fuel cwd words t) = Some Finished <->
   exists ms files, Forall2 (path_spells t cwd) (input_paths a) ms /\ run fuel (command_of a) ms [] = (files, Ok tt)
     /\ (forall v, In v vs -> ~ is_file t v) /\ forall n, In n (map fst files) -> ~ taken t vs e n).
Proof.
  intros fuel cwd words t a dir names vs e H Hc C Ld.
  assert (Oe : ~ os_error Finished) by (intros (x & X); discriminate).
  assert (V : forall ms files, Forall2 (path_spells t cwd) (input_paths a) ms -> run fuel (command_of a) ms [] = (files, Ok tt) -> bundle_valid names ms).
  { intros ms files F R. assert (Hg := paths_grammatical _ _ _ _ F). rewrite (run_config names) in R by exact Hc.
    destruct (build_from_config names ms) as [b|x|] eqn:E; try discriminate. apply bundle_accepted_iff; eauto. }
  split.
  - intros E.
    assert (Rd : exists ms, Forall2 (path_spells t cwd) (input_paths a) ms).
    { destruct (read_inputs t cwd (input_paths a)) as [ts|x] eqn:R; [destruct (map_result read_text ts) as [ms|x|] eqn:T|].
      - exists ms. apply paths_modules. eauto.
      - exfalso. destruct (tree_unreadable fuel cwd words t a dir H) as (y & Y & Z).
        { intros (ms & F). apply paths_modules in F as (ts' & R' & T'). rewrite R in R'. injection R' as <-. congruence. }
        rewrite Y in E. injection E as ->. destruct Z as [Z|[Z|(z & Z)]]; [auto|discriminate..].
      - exfalso. revert T. apply map_result_total. intros s. unfold read_text. destruct (Grammar.read_module s); discriminate.
      - exfalso. destruct (tree_unreadable fuel cwd words t a dir H) as (y & Y & Z).
        { intros (ms & F). apply paths_modules in F as (ts' & R' & T'). congruence. }
        rewrite Y in E. injection E as ->. destruct Z as [Z|[Z|(z & Z)]]; [auto|discriminate..]. }
    destruct Rd as (ms & F). assert (Hg := paths_grammatical _ _ _ _ F).
    assert (Vb : bundle_valid names ms).
    { destruct (build_from_config names ms) as [b|x|] eqn:B.
      - apply bundle_accepted_iff; eauto.
      - exfalso. destruct (tree_rejected fuel cwd words t a dir names ms H Hc F) as (y & Y & Z).
        { intros Vb. apply bundle_accepted_iff in Vb as (b & Vb); [congruence|exact Hg]. }
        rewrite Y in E. injection E as ->. destruct Z as [Z|(z & Z)]; discriminate.
      - destruct (Ends_proofs.ends_config names ms B). }
    destruct (tree_places fuel cwd words t a dir names ms vs e H Hc C F Vb Ld) as (files & r & t' & x & R & S & A & B).
    rewrite S in E. injection E as ->. destruct (all_or_file t vs) as [X|X]; [destruct (A X); contradiction|].
    destruct (B X) as (_ & _ & B3 & B4). destruct (all_or_taken t vs e (map fst files)) as [Y|Y]; [destruct Oe; auto|].
    destruct (B4 Y) as (Sh & _). exists ms, files. split; [exact F|]. split; [|auto]. rewrite R. f_equal.
    destruct r as [[]|z|]; [reflexivity|discriminate Sh..].
  - intros (ms & files & F & R & X & Y).
    destruct (tree_places fuel cwd words t a dir names ms vs e H Hc C F (V _ _ F R) Ld) as (files' & r & t' & x & R' & S & A & B).
    rewrite R in R'. injection R' as <- <-. destruct (B X) as (_ & _ & _ & B4). destruct (B4 Y) as (Sh & _). cbn in Sh. subst x. rewrite S. reflexivity.
Qed.

(** Nothing is deleted, and folders do not turn into files or the other way
    round. *)
Lemma only_keeps : forall t t' vs, only_folders t t' vs -> (forall l, is_folder t l -> is_folder t' l) /\ forall l, is_file t l -> is_file t' l.
Proof. intros t t' vs (A & B & D). split; [exact D|]. intros l (c & H). exists c. apply A, H. Qed.
Lemma write_keeps : forall app t cwd q c, (forall l, is_folder t l -> is_folder (fst (write_path app t cwd q c)) l)
  /\ forall l, is_file t l -> is_file (fst (write_path app t cwd q c)) l.
Proof.
  intros app t cwd q c. unfold write_path. destruct (walk t (origin cwd q) (split_slash q)) as [e|x] eqn:W; [|auto].
  assert (K : forall x, kind (lookup t e) <> AFolder -> e = [] \/ is_folder t (removelast e) ->
    (forall l, is_folder t l -> is_folder (put e (File x) t) l) /\ forall l, is_file t l -> is_file (put e (File x) t) l).
  { intros x N R.
    assert (PK : forall l', kind (lookup (put e (File x) t) l') = if place_dec l' e then AFile x else kind (lookup t l'))
      by (intros l'; apply put_kind; eauto).
    split.
    - intros l L. apply kind_folder. rewrite PK. destruct (place_dec l e) as [->|]; [|apply kind_folder, L]. destruct N. apply kind_folder, L.
    - intros l (y & L). destruct (place_dec l e) as [P|P] eqn:Q.
      + exists x. apply kind_file. rewrite PK, Q. reflexivity.
      + exists y. apply kind_file. rewrite PK, Q. apply kind_file, L. }
  assert (R : is_folder t (removelast e) \/ is_folder t e).
  { destruct (snoc_names q) as (ps & n & Q). rewrite Q, walk_app in W. destruct (walk t (origin cwd q) ps) as [d|] eqn:W'; [|discriminate].
    cbn [walk] in W. destruct (lookup t d) as [[y|es]|] eqn:L; try discriminate. injection W as W.
    assert (Fd : is_folder t d) by (exists es; exact L).
    destruct (next_cases d n) as [(_ & E)|[(_ & E)|(_ & _ & _ & E)]]; rewrite E in W; subst e.
    - right. exact Fd.
    - right. apply folder_parent, Fd.
    - left. rewrite removelast_last. exact Fd. }
  destruct (lookup t e) as [[old|es]|] eqn:L; [|auto|]; cbn [fst].
  - apply K; [discriminate|]. destruct R as [R|(es & R)]; [auto|congruence].
  - apply K; [discriminate|]. destruct R as [R|(es & R)]; [auto|congruence].
Qed.
Lemma files_keep : forall files t cwd dir, (forall l, is_folder t l -> is_folder (fst (write_files t cwd dir files)) l)
  /\ forall l, is_file t l -> is_file (fst (write_files t cwd dir files)) l.
Proof.
  induction files as [|f files IH]; intros t cwd dir; cbn [write_files]; [auto|].
  destruct (write_keeps false t cwd (os_path_join dir (fst f)) (snd f)) as (A & B).
  destruct (write_path false t cwd (os_path_join dir (fst f)) (snd f)) as [t1 [x|]]; cbn [fst] in *; [auto|].
  destruct (IH t1 cwd dir) as (C & D). auto.
Qed.
Lemma keeps_trans : forall t1 t2 t3,
  (forall l, is_folder t1 l -> is_folder t2 l) /\ (forall l, is_file t1 l -> is_file t2 l) ->
  (forall l, is_folder t2 l -> is_folder t3 l) /\ (forall l, is_file t2 l -> is_file t3 l) ->
  (forall l, is_folder t1 l -> is_folder t3 l) /\ (forall l, is_file t1 l -> is_file t3 l).
Proof. intros t1 t2 t3 (A & B) (C & D). auto. Qed.

Theorem tree_keeps : forall fuel cwd words t t' x, is_folder t cwd -> start_in fuel cwd words t = (t', x) ->
  (forall l, is_folder t l -> is_folder t' l) /\ (forall l, is_file t l -> is_file t' l).
Proof.
  intros fuel cwd words t t' x C H. unfold start_in in H. destruct (parse_args words) as [[a dir]|]; [|injection H as <- _; auto].
  destruct (read_inputs t cwd (input_paths a)) as [ts|y]; [|injection H as <- _; auto].
  assert (Mk : forall path, (forall l, is_folder t l -> is_folder (fst (make_folder t cwd path)) l)
    /\ forall l, is_file t l -> is_file (fst (make_folder t cwd path)) l).
  { intros path. destruct (make_folder_spec t cwd path _ C eq_refl) as (O & _). eapply only_keeps, O. }
  assert (If : forall dir o, (forall l, is_folder t l -> is_folder (fst (into_folder t cwd dir o)) l)
    /\ forall l, is_file t l -> is_file (fst (into_folder t cwd dir o)) l).
  { intros d o. unfold into_folder. specialize (Mk d). destruct (make_folder t cwd d) as [t1 [y|]]; [exact Mk|]. cbn [fst] in Mk.
    assert (W := files_keep (fst o) t1 cwd d). destruct (write_files t1 cwd d (fst o)) as [t2 [y|]]; exact (keeps_trans _ _ _ Mk W). }
  assert (Ob : forall r f, (forall b, (forall l, is_folder t l -> is_folder (fst (f b)) l) /\ forall l, is_file t l -> is_file (fst (f b)) l) ->
    (forall l, is_folder t l -> is_folder (fst (on_bundle t r f)) l) /\ forall l, is_file t l -> is_file (fst (on_bundle t r f)) l).
  { intros [b|[]|] f Hf; cbn [on_bundle fst]; auto. }
  unfold on_modules in H. destruct (map_result read_text ts) as [ms|y|]; [|injection H as <- _; auto|injection H as <- _; auto].
  assert (R : (forall l, is_folder t l -> is_folder (fst (run_in fuel t cwd (command_of a) dir ms)) l)
    /\ forall l, is_file t l -> is_file (fst (run_in fuel t cwd (command_of a) dir ms)) l).
  { destruct (command_of a) as [m msgs out|ns|ns|ns en]; cbn [run_in]; [|apply Ob; intros b; apply If..].
    destruct (build_from_cosmos_config ms) as [b|y|]; [|auto..]. destruct (generate_cosmos fuel b m msgs out) as [f|y|]; [|auto..].
    unfold into_file. specialize (Mk (dirname (os_path_join dir (fst f)))). destruct (make_folder t cwd (dirname (os_path_join dir (fst f)))) as [t1 [y|]]; [exact Mk|].
    cbn [fst] in Mk. assert (W := write_keeps true t1 cwd (os_path_join dir (fst f)) (snd f)).
    destruct (write_path true t1 cwd (os_path_join dir (fst f)) (snd f)) as [t2 [y|]]; exact (keeps_trans _ _ _ Mk W). }
  destruct (run_in fuel t cwd (command_of a) dir ms) as [t2 y]. injection H as <- _. exact R.
Qed.
