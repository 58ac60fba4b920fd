(** * Proofs about paths, files and folders *)
From Coq Require Import Lia.
From Verif Require Import Base PyStr Ast Source Cli Spec_Grammar Spec_Syntax Spec_Source Spec_Cli Tree Spec_Tree Lib_proofs Str_proofs
  Source_proofs Cli_proofs Tree_proofs.
Open Scope string_scope.
Open Scope list_scope.

(** ** The names of a path *)
Lemma split_slash_cons : forall s, exists w ws, split_slash s = w :: ws.
Proof.
  intros [|c s]; simpl; [eauto|]. destruct (Ascii.eqb c "/"); [eauto|]. destruct (split_slash s); eauto.
Qed.
Lemma split_slash_iff : forall s l, names_in s l <-> split_slash s = l.
Proof.
  intros s l. unfold names_in. split.
  - intros (N & F & <-). induction l as [|w l IH]; [congruence|]. clear N. inversion F as [|? ? F1 F2]; subst.
    destruct l as [|x l].
    + simpl. clear - F1. induction w as [|c w IHw]; [reflexivity|]. unfold no_slash in F1. simpl in *.
      apply andb_true_iff in F1 as [F1 F2]. apply negb_true_iff in F1. rewrite F1, (IHw F2). reflexivity.
    + specialize (IH ltac:(discriminate) F2). change (String.concat "/" (w :: x :: l)) with (w ++ "/" ++ String.concat "/" (x :: l))%string.
      set (rest := String.concat "/" (x :: l)) in *. clearbody rest.
      clear - F1 IH. induction w as [|c w IHw].
      * simpl. rewrite IH. reflexivity.
      * unfold no_slash in F1. simpl in F1. apply andb_true_iff in F1 as [F1 F2]. apply negb_true_iff in F1.
        change (String c w ++ "/" ++ rest)%string with (String c (w ++ "/" ++ rest)%string).
        cbn [split_slash]. rewrite F1. unfold no_slash in IHw. rewrite (IHw F2). reflexivity.
  - intros <-. induction s as [|c s (N & F & C)]; simpl.
    + split; [discriminate|]. split; [constructor; [reflexivity|constructor]|reflexivity].
    + destruct (split_slash_cons s) as (w & ws & E). rewrite E in *. destruct (Ascii.eqb c "/") eqn:K.
      * apply Ascii.eqb_eq in K as ->. split; [discriminate|]. split; [constructor; [reflexivity|exact F]|].
        simpl in *. rewrite C. reflexivity.
      * split; [discriminate|]. inversion F as [|? ? F1 F2]; subst. split.
        -- constructor; [|exact F2]. unfold no_slash in *. simpl. rewrite K. exact F1.
        -- destruct ws; reflexivity.
Qed.
Lemma names_unique : forall s a b, names_in s a -> names_in s b -> a = b.
Proof. intros s a b A B. apply split_slash_iff in A, B. congruence. Qed.
Lemma split_slash_app : forall a b, split_slash (a ++ "/" ++ b)%string = split_slash a ++ split_slash b.
Proof.
  induction a as [|c a IH]; intros b; [reflexivity|].
  change ((String c a ++ "/" ++ b)%string) with (String c (a ++ "/" ++ b)%string). cbn [split_slash]. rewrite IH.
  destruct (Ascii.eqb c "/"); [reflexivity|]. destruct (split_slash_cons a) as (w & ws & ->). reflexivity.
Qed.
Lemma split_no_slash : forall n, no_slash n -> split_slash n = [n].
Proof. intros n N. apply split_slash_iff. split; [discriminate|]. split; [auto|reflexivity]. Qed.

Lemma starts_iff : forall cwd path l, starts cwd path l <-> l = origin cwd path.
Proof.
  intros cwd path l. unfold starts, origin. destruct (startswith "/" path) eqn:S.
  - apply startswith_iff in S. split; [intros [(_ & H)|(N & _)]; [exact H|contradiction]|auto].
  - assert (N : ~ prefix_of "/" path) by (intros H; apply startswith_iff in H; congruence).
    split; [intros [(H & _)|(_ & H)]; [contradiction|exact H]|auto].
Qed.
Lemma leads_iff : forall cwd path vs e, leads cwd path vs e <->
  vs = vis (origin cwd path) (split_slash path) /\ e = dst (origin cwd path) (split_slash path).
Proof.
  intros cwd path vs e. split.
  - intros (l & ps & S & N & P). apply starts_iff in S as ->. apply split_slash_iff in N as <-. apply passes_iff, P.
  - intros P. exists (origin cwd path), (split_slash path). split; [apply starts_iff; reflexivity|].
    split; [apply split_slash_iff; reflexivity|apply passes_iff, P].
Qed.

(** ** Folders *)
Definition significant (p : string) : bool := negb (String.eqb p "" || String.eqb p ".").
Lemma significant_real : forall p, significant p = true <-> real p.
Proof.
  intros p. unfold significant, real. rewrite negb_true_iff, orb_false_iff, !String.eqb_neq. reflexivity.
Qed.
Lemma significant_not : forall p l, significant p = false -> next l p = l.
Proof.
  intros p l H. apply next_same. unfold significant in H. apply negb_false_iff, orb_true_iff in H as [H|H]; apply String.eqb_eq in H; auto.
Qed.
Lemma dst_filter : forall ps l, dst l (filter significant ps) = dst l ps.
Proof.
  induction ps as [|p ps IH]; intros l; [reflexivity|]. cbn [filter]. destruct (significant p) eqn:S; cbn [dst]; [apply IH|].
  rewrite (significant_not _ _ S). apply IH.
Qed.
Lemma vis_filter : forall ps l x, In x (l :: vis l (filter significant ps)) <-> In x (l :: vis l ps).
Proof.
  induction ps as [|p ps IH]; intros l x; [reflexivity|]. cbn [filter]. destruct (significant p) eqn:S; cbn [vis].
  - split; intros [H|H]; [left; exact H|right; apply IH; exact H|left; exact H|right; apply IH; exact H].
  - rewrite (significant_not _ _ S), IH. split; intros [H|H]; cbn in *; intuition auto.
Qed.

(** Making the folder with names [ps] from [l]. *)
Definition makes (t : node) (l : place_t) (ps : list string) (out : node * option oserror) : Prop :=
  only_folders t (fst out) (vis l ps)
  /\ ((exists v, In v (vis l ps) /\ is_file t v) -> snd out <> None)
  /\ ((forall v, In v (vis l ps) -> ~ is_file t v) -> snd out = None)
  /\ (snd out = None -> Forall (is_folder (fst out)) (vis l ps)).
Lemma makes_filter : forall t l a b out, is_folder t l -> filter significant a = filter significant b -> makes t l a out -> makes t l b out.
Proof.
  intros t l a b out L E ((O1 & O2 & O3) & M1 & M2 & M3).
  assert (V : forall x, In x (l :: vis l a) <-> In x (l :: vis l b)) by (intros x; rewrite <- vis_filter, E, vis_filter; reflexivity).
  assert (NF : ~ is_file t l) by (intros F; exact (file_not_folder t l F L)).
  assert (V1 : forall x, In x (vis l a) -> x = l \/ In x (vis l b)).
  { intros x I. destruct (proj1 (V x)) as [<-|]; [right; exact I|auto|auto]. }
  assert (V2 : forall x, In x (vis l b) -> x = l \/ In x (vis l a)).
  { intros x I. destruct (proj2 (V x)) as [<-|]; [right; exact I|auto|auto]. }
  split; [|split; [|split]].
  - split; [exact O1|]. split; [|exact O3]. intros x H. destruct (O2 _ H) as [G|G]; [auto|]. apply V1 in G as [->|G]; auto.
  - intros (v & I & F). apply M1. apply V2 in I as [->|I]; [contradiction|eauto].
  - intros H. apply M2. intros v I. apply V1 in I as [->|I]; auto.
  - intros H. apply Forall_forall. intros x I. apply V2 in I as [->|I]; [apply O3, L|]. apply M3 in H. rewrite Forall_forall in H. auto.
Qed.
Lemma filter_twice : forall A (f : A -> bool) l, filter f (filter f l) = filter f l.
Proof. intros A f. induction l as [|x l IH]; [reflexivity|]. cbn [filter]. destruct (f x) eqn:E; cbn [filter]; [rewrite E, IH|]; auto. Qed.

Lemma make_folder_spec : forall t cwd path ps, is_folder t cwd -> filter significant ps = filter significant (split_slash path) ->
  makes t (origin cwd path) ps (make_folder t cwd path).
Proof.
  intros t cwd path ps C E.
  assert (L : is_folder t (origin cwd path)).
  { unfold origin. destruct (startswith "/" path); [|exact C]. clear -C. induction cwd as [|x cwd IH] using rev_ind; [exact C|].
    apply IH. apply folder_parent in C. rewrite removelast_last in C. exact C. }
  apply (makes_filter _ _ (split_slash path)); [exact L|auto|]. unfold make_folder.
  destruct (negb (String.eqb path "") && is_dir t (origin cwd path) (split_slash path)) eqn:D.
  - apply andb_prop in D as (_ & D). apply is_dir_iff in D as (W & F). destruct (walk_reach _ _ _ _ W F) as (_ & R).
    rewrite Forall_forall in R. split; [apply only_same|]. cbn [fst snd]. split; [|split; [reflexivity|]].
    + intros (v & I & X). destruct (file_not_folder t v X (R v I)).
    + intros _. apply Forall_forall, R.
  - apply (makes_filter _ _ (parts path)); [exact L|apply filter_twice|].
    assert (R : Forall real (parts path)).
    { apply Forall_forall. intros p I. apply filter_In in I as (_ & S). apply significant_real. exact S. }
    destruct (mkdir_spec (parts path) t (origin cwd path) R L) as (t' & r & -> & H). exact H.
Qed.

(** ** dirname *)
Lemma has_slash_no : forall s, has_slash s = false <-> no_slash s.
Proof.
  unfold no_slash. induction s as [|c s IH]; cbn; [split; reflexivity|].
  rewrite orb_false_iff, andb_true_iff, negb_true_iff, IH. reflexivity.
Qed.
Lemma up_to_none : forall s, no_slash s -> up_to_slash s = "".
Proof.
  intros [|c s] H; [reflexivity|]. cbn [up_to_slash]. unfold no_slash in H. cbn in H. apply andb_prop in H as (H1 & H2).
  apply (proj2 (has_slash_no s)) in H2. rewrite H2. apply negb_true_iff in H1. rewrite H1. reflexivity.
Qed.
Lemma has_slash_app : forall a b, has_slash (a ++ "/" ++ b)%string = true.
Proof.
  induction a as [|c a IH]; intros b; [reflexivity|].
  change ((String c a ++ "/" ++ b)%string) with (String c (a ++ "/" ++ b)%string). cbn [has_slash]. rewrite IH. apply orb_true_r.
Qed.
Lemma up_to_last : forall h n, no_slash n -> up_to_slash (h ++ "/" ++ n)%string = (h ++ "/")%string.
Proof.
  induction h as [|c h IH]; intros n N.
  - cbn. apply (proj2 (has_slash_no n)) in N. rewrite N. reflexivity.
  - change ((String c h ++ "/" ++ n)%string) with (String c (h ++ "/" ++ n)%string). cbn [up_to_slash].
    rewrite has_slash_app, (IH n N). reflexivity.
Qed.
Lemma rstrip_names : forall s,
  hd "" (split_slash (rstrip_slash s)) = hd "" (split_slash s)
  /\ filter significant (tl (split_slash (rstrip_slash s))) = filter significant (tl (split_slash s)).
Proof.
  induction s as [|c s (H & T)]; [auto|]. cbn [rstrip_slash].
  destruct (rstrip_slash s) as [|d r] eqn:R.
  - destruct (split_slash_cons s) as (w & ws & E). cbn in H, T. rewrite E in *. cbn [hd tl] in H, T. subst w.
    destruct (Ascii.eqb c "/") eqn:C; cbn [split_slash]; rewrite ?C, E; cbn [split_slash hd tl filter significant String.eqb orb negb]; auto.
  - cbn [split_slash]. fold (split_slash (String d r)) in *.
    change (if Ascii.eqb d "/" then "" :: split_slash r else match split_slash r with [] => [String d ""] | w :: ws => String d w :: ws end)
      with (split_slash (String d r)).
    destruct (split_slash_cons s) as (w & ws & E). destruct (split_slash_cons (String d r)) as (w' & ws' & E').
    rewrite E, E' in *. cbn [hd tl] in *. subst w'. destruct (Ascii.eqb c "/"); cbn [hd tl filter]; [|auto].
    split; [reflexivity|]. rewrite T. reflexivity.
Qed.
Lemma first_slash : forall c a b, startswith "/" (String c a) = startswith "/" (String c b).
Proof. intros c a b. unfold startswith. cbn [String.prefix]. destruct (ascii_dec "/" c); [|reflexivity]. destruct a, b; reflexivity. Qed.
Lemma rstrip_start : forall s, rstrip_slash s <> "" -> startswith "/" (rstrip_slash s) = startswith "/" s.
Proof.
  intros [|c s] H; [destruct (H eq_refl)|]. cbn [rstrip_slash] in *. destruct (rstrip_slash s) as [|d r].
  - destruct (Ascii.eqb c "/") eqn:C; [congruence|]. apply first_slash.
  - apply first_slash.
Qed.
Lemma filter_hd_tl : forall (l : list string), l <> [] ->
  filter significant l = (if significant (hd "" l) then [hd "" l] else []) ++ filter significant (tl l).
Proof. intros [|x l] H; [congruence|]. cbn [filter hd tl]. destruct (significant x); reflexivity. Qed.

Lemma dirname_spec : forall q ps n, names_in q (ps ++ [n]) ->
  filter significant ps = filter significant (split_slash (dirname q))
  /\ forall cwd, n <> "" -> origin cwd (dirname q) = origin cwd q.
Proof.
  intros q ps n N.
  assert (Sn : no_slash n).
  { destruct N as (_ & F & _). apply Forall_app in F as (_ & F). inversion F; assumption. }
  assert (U : split_slash (up_to_slash q) = match ps with [] => [""] | _ => ps ++ [""] end
              /\ forall cwd, n <> "" -> origin cwd (up_to_slash q) = origin cwd q).
  { destruct ps as [|p ps].
    - destruct N as (_ & _ & <-). cbn [app String.concat]. rewrite up_to_none by exact Sn. split; [reflexivity|].
      intros cwd Ne. unfold origin. destruct (startswith "/" n) eqn:S; [|reflexivity].
      apply startswith_iff in S as (x & ->). discriminate Sn.
    - set (h := String.concat "/" (p :: ps)).
      assert (Q : q = (h ++ "/" ++ n)%string).
      { destruct N as (_ & _ & <-). unfold h. generalize p. clear. induction ps as [|x ps IH]; intros p; [reflexivity|].
        change (String.concat "/" ((p :: x :: ps) ++ [n])) with (p ++ "/" ++ String.concat "/" ((x :: ps) ++ [n]))%string.
        change (String.concat "/" (p :: x :: ps)) with (p ++ "/" ++ String.concat "/" (x :: ps))%string.
        rewrite IH, !string_app_assoc. reflexivity. }
      assert (H : split_slash h = p :: ps).
      { apply split_slash_iff. split; [discriminate|]. split; [|reflexivity]. destruct N as (_ & F & _). apply Forall_app in F as (F & _). exact F. }
      rewrite Q, up_to_last by exact Sn. split.
      + rewrite <- (string_app_nil "/"). rewrite split_slash_app, H. reflexivity.
      + intros cwd _. unfold origin. clear. destruct h as [|c h]; [destruct n; reflexivity|]. cbn [append]. rewrite (first_slash c _ (h ++ "/" ++ n)). reflexivity. }
  destruct U as (U1 & U2). unfold dirname.
  assert (G : filter significant ps = filter significant (split_slash (up_to_slash q))).
  { rewrite U1. destruct ps as [|p ps]; [reflexivity|]. rewrite filter_app. cbn [filter significant String.eqb orb negb]. symmetry. apply app_nil_r. }
  destruct (rstrip_slash (up_to_slash q)) as [|d r] eqn:R; [auto|]. rewrite <- R. split.
  - rewrite G. destruct (rstrip_names (up_to_slash q)) as (A & B).
    rewrite (filter_hd_tl (split_slash (up_to_slash q))), (filter_hd_tl (split_slash (rstrip_slash (up_to_slash q)))).
    + rewrite A, B. reflexivity.
    + destruct (split_slash_cons (rstrip_slash (up_to_slash q))) as (w & ws & ->). discriminate.
    + destruct (split_slash_cons (up_to_slash q)) as (w & ws & ->). discriminate.
  - intros cwd Ne. rewrite <- (U2 cwd Ne). unfold origin. rewrite rstrip_start by (rewrite R; discriminate). reflexivity.
Qed.

(** ** Reading *)
Lemma snoc_names : forall s, exists ps n, split_slash s = ps ++ [n].
Proof.
  intros s. destruct (split_slash_cons s) as (w & ws & E). destruct (exists_last (l := split_slash s)) as (ps & n & H); [rewrite E; discriminate|].
  eauto.
Qed.
Lemma path_file_iff : forall t cwd path c,
  path_file t cwd path c <-> path <> "" /\ exists l, walk t (origin cwd path) (split_slash path) = inl l /\ file_at t l c.
Proof.
  intros t cwd path c. unfold path_file. split; intros (Ne & H); (split; [exact Ne|]).
  - destruct H as (l & ps & n & vs & e & S & N & P & L & F & N1 & N2 & N3 & A). apply starts_iff in S as ->. apply split_slash_iff in N.
    apply passes_iff in P as (-> & ->). rewrite N. exists (dst (origin cwd path) ps ++ [n]). split; [|exact A].
    destruct (walk_folders _ _ _ L F) as (W & D). rewrite walk_app, W. cbn [walk]. destruct D as (es & ->).
    rewrite next_down by assumption. reflexivity.
  - destruct H as (l & W & A). destruct (snoc_names path) as (ps & n & N). rewrite N, walk_app in W.
    destruct (walk t (origin cwd path) ps) as [e|] eqn:W'; [|discriminate]. assert (E := walk_dst _ _ _ _ W'). cbn [walk] in W.
    destruct (lookup t e) as [[x|es]|] eqn:K; try discriminate. injection W as W.
    assert (Fe : is_folder t e) by (exists es; exact K).
    destruct (walk_reach _ _ _ _ W' Fe) as (L & F).
    destruct (next_cases e n) as [(P & E')|[(-> & E')|(N1 & N2 & N3 & E')]]; rewrite E' in W; subst l.
    + exfalso. eapply file_not_folder; [exists c; exact A|exact Fe].
    + exfalso. eapply file_not_folder; [exists c; exact A|apply folder_parent, Fe].
    + exists (origin cwd path), ps, n, (vis (origin cwd path) ps), e. split; [apply starts_iff; reflexivity|].
      split; [apply split_slash_iff, N|]. split; [apply passes_iff; auto|]. auto 9.
Qed.
Lemma read_inputs_iff : forall t cwd paths texts, read_inputs t cwd paths = inl texts <->
  Forall2 (fun p s => exists f, path_file t cwd p f /\ text_of_file f s) paths texts.
Proof.
  intros t cwd paths. induction paths as [|p paths IH]; intros texts; cbn [read_inputs].
  - split; [intros H; injection H as <-; constructor|intros H; inversion H; reflexivity].
  - assert (One : forall s, (path_exists t cwd p = true /\ read_path t cwd p = inl s) <-> path_file t cwd p s).
    { intros s. unfold path_exists, read_path. destruct (walk t (origin cwd p) (split_slash p)) as [l|e] eqn:W.
      - destruct (lookup t l) as [[c|es]|] eqn:K; split.
        + intros (E & H). injection H as <-. apply path_file_iff. rewrite andb_true_r in E.
          apply negb_true_iff, String.eqb_neq in E. eauto.
        + intros P. apply path_file_iff in P as (Ne & l' & W' & A). apply String.eqb_neq in Ne. rewrite Ne. split; [reflexivity|].
          rewrite W in W'. injection W' as <-. unfold file_at in A. rewrite K in A. injection A as ->. reflexivity.
        + intros (_ & H). discriminate.
        + intros P. apply path_file_iff in P as (Ne & l' & W' & A). rewrite W in W'. injection W' as <-. unfold file_at in A. congruence.
        + intros (_ & H). discriminate.
        + intros P. apply path_file_iff in P as (Ne & l' & W' & A). rewrite W in W'. injection W' as <-. unfold file_at in A. congruence.
      - split; [intros (_ & H); discriminate|]. intros P. apply path_file_iff in P as (Ne & l' & W' & A). congruence. }
    split.
    + intros H. destruct (path_exists t cwd p) eqn:E; [|discriminate]. destruct (read_path t cwd p) as [s|e] eqn:R; [|discriminate].
      destruct (decode_file s) as [u|] eqn:D; [|discriminate].
      destruct (read_inputs t cwd paths) as [l|e] eqn:Q; [|discriminate]. injection H as <-. constructor; [exists s; split; [apply One; auto|apply newlines_iff, D]|apply IH; reflexivity].
    + intros H. inversion H as [|? s ? l H1 H2]; subst. destruct H1 as (f & H1 & D). apply One in H1 as (-> & ->). apply newlines_iff in D as ->. apply IH in H2 as ->. reflexivity.
Qed.

(** ** Writing *)
Lemma write_spec : forall app t cwd q ps n c, names_in q (ps ++ [n]) -> n <> "" -> n <> "." -> n <> ".." ->
  let l := origin cwd q in let e := dst l ps in
  is_folder t l -> Forall (is_folder t) (vis l ps) ->
  (is_folder t (e ++ [n]) /\ write_path app t cwd q c = (t, Some IsADirectory))
  \/ (~ is_folder t (e ++ [n]) /\ exists t' old, write_path app t cwd q c = (t', None)
      /\ (file_at t (e ++ [n]) old \/ old = "" /\ ~ is_file t (e ++ [n]))
      /\ file_at t' (e ++ [n]) (if app then old ++ c else c)%string
      /\ (forall l' c', l' <> e ++ [n] -> (file_at t' l' c' <-> file_at t l' c'))
      /\ (forall l', is_folder t' l' <-> is_folder t l')).
Proof.
  intros app t cwd q ps n c N N1 N2 N3 l e L F. apply split_slash_iff in N. destruct (walk_folders _ _ _ L F) as (W & D).
  assert (Wq : walk t (origin cwd q) (split_slash q) = inl (e ++ [n])).
  { rewrite N, walk_app. fold l. rewrite W. cbn [walk]. destruct D as (es & ->). rewrite next_down by assumption. reflexivity. }
  unfold write_path. rewrite Wq.
  assert (P : forall x, kind (lookup t (e ++ [n])) <> AFolder ->
    file_at (put (e ++ [n]) (File x) t) (e ++ [n]) x
    /\ (forall l' c', l' <> e ++ [n] -> (file_at (put (e ++ [n]) (File x) t) l' c' <-> file_at t l' c'))
    /\ (forall l', is_folder (put (e ++ [n]) (File x) t) l' <-> is_folder t l')).
  { intros x K. assert (PK : forall l', kind (lookup (put (e ++ [n]) (File x) t) l') = if place_dec l' (e ++ [n]) then AFile x else kind (lookup t l')).
    { intros l'. rewrite put_kind; [reflexivity|right; rewrite removelast_last; exact D|exact K|right; eauto]. }
    split; [|split].
    - apply kind_file. rewrite PK. destruct (place_dec _ _); congruence.
    - intros l' c' Ne. rewrite <- !kind_file, PK. destruct (place_dec l' (e ++ [n])); [contradiction|reflexivity].
    - intros l'. rewrite <- !kind_folder, PK. destruct (place_dec l' (e ++ [n])) as [->|]; [|reflexivity]. split; [discriminate|congruence]. }
  destruct (lookup t (e ++ [n])) as [[old|es]|] eqn:K.
  - right. split; [intros (es & H); congruence|]. eexists. exists old. split; [reflexivity|]. split; [left; exact K|]. apply P. discriminate.
  - left. split; [exists es; exact K|reflexivity].
  - right. split; [intros (es & H); congruence|]. eexists. exists "". split; [reflexivity|].
    split; [right; split; [reflexivity|]; intros (x & H); unfold file_at in H; congruence|].
    destruct app; apply P; discriminate.
Qed.
