(** * Proofs about directory trees *)
From Coq Require Import Lia.
From Verif Require Import Base PyStr Ast Source Spec_Grammar Spec_Syntax Spec_Source Spec_Cli Tree Spec_Tree Lib_proofs.
Open Scope string_scope.
Open Scope list_scope.

(** ** The tree *)
Lemma entry_set_get : forall x n es y, entry_get y (entry_set x n es) = if String.eqb x y then Some n else entry_get y es.
Proof.
  intros x n es y. induction es as [|[z m] es IH]; cbn [entry_set entry_get].
  - reflexivity.
  - destruct (String.eqb_spec z x) as [->|N]; cbn [entry_get].
    + destruct (String.eqb x y); reflexivity.
    + rewrite IH. destruct (String.eqb_spec z y) as [->|M]; [|reflexivity].
      destruct (String.eqb_spec x y) as [->|]; [congruence|reflexivity].
Qed.

Inductive what := Nothing | AFolder | AFile (c : string).
Definition kind (o : option node) : what :=
  match o with None => Nothing | Some (Dir _) => AFolder | Some (File c) => AFile c end.
Lemma kind_folder : forall t l, kind (lookup t l) = AFolder <-> is_folder t l.
Proof.
  intros t l. unfold is_folder. destruct (lookup t l) as [[c|es]|]; cbn; split; try discriminate; eauto; intros (x & H); discriminate.
Qed.
Lemma kind_file : forall t l c, kind (lookup t l) = AFile c <-> file_at t l c.
Proof.
  intros t l c. unfold file_at. destruct (lookup t l) as [[c'|es]|]; cbn; split; try discriminate; intros H; congruence.
Qed.
Lemma same_kinds : forall t t', (forall l, kind (lookup t' l) = kind (lookup t l)) ->
  forall l, (is_folder t' l <-> is_folder t l) /\ forall c, file_at t' l c <-> file_at t l c.
Proof.
  intros t t' H l. rewrite <- !kind_folder, H. split; [reflexivity|]. intros c. rewrite <- !kind_file, H. reflexivity.
Qed.

Lemma lookup_app : forall t a b, lookup t (a ++ b) = match lookup t a with Some n => lookup n b | None => None end.
Proof.
  intros t a. revert t. induction a as [|x a IH]; intros t b; cbn [app lookup]; [reflexivity|].
  destruct t as [c|es]; [reflexivity|]. destruct (entry_get x es); [apply IH|reflexivity].
Qed.
Lemma lookup_above : forall t l x, kind (lookup t (l ++ [x])) <> Nothing -> is_folder t l.
Proof.
  intros t l x H. rewrite lookup_app in H. unfold is_folder. destruct (lookup t l) as [[c|es]|]; cbn in H; [congruence|eauto|congruence].
Qed.
Lemma folder_parent : forall t l, is_folder t l -> is_folder t (removelast l).
Proof.
  intros t l. destruct l as [|x l] using rev_ind; [auto|]. intros H. rewrite removelast_last.
  apply (lookup_above t l x). apply kind_folder in H. congruence.
Qed.

Definition place_dec : forall a b : place_t, {a = b} + {a <> b} := list_eq_dec string_dec.
Lemma put_kind : forall l n t l', l = [] \/ is_folder t (removelast l) -> kind (lookup t l) <> AFolder ->
  n = Dir [] \/ (exists c, n = File c) ->
  kind (lookup (put l n t) l') = if place_dec l' l then kind (Some n) else kind (lookup t l').
Proof.
  assert (B : forall n x s, n = Dir [] \/ (exists c, n = File c) -> lookup n (x :: s) = None)
    by (intros n x s [->|(c & ->)]; reflexivity).
  induction l as [|x r IH]; intros n t l' R K N.
  - cbn [put]. destruct t as [c|es]; [|destruct (K eq_refl)]. destruct l' as [|y s]; [reflexivity|].
    rewrite B by exact N. destruct (place_dec (y :: s) []); [discriminate|reflexivity].
  - destruct R as [R|R]; [discriminate|].
    assert (T : exists es, t = Dir es).
    { destruct t as [c|es]; [|eauto]. destruct r; destruct R as (z & R); discriminate. }
    destruct T as (es & ->). cbn [put]. destruct l' as [|y s].
    + destruct (place_dec [] (x :: r)); [discriminate|reflexivity].
    + cbn [lookup]. rewrite entry_set_get. destruct (String.eqb_spec x y) as [<-|X].
      * assert (P : (if place_dec (x :: s) (x :: r) then kind (Some n) else kind (lookup (Dir es) (x :: s)))
                    = if place_dec s r then kind (Some n) else kind (lookup (Dir es) (x :: s))).
        { destruct (place_dec (x :: s) (x :: r)), (place_dec s r); congruence. }
        cbn [lookup] in P. rewrite P. clear P. cbn [lookup] in K. destruct (entry_get x es) as [m|] eqn:E.
        -- apply IH; [|exact K|exact N]. destruct r as [|z r]; [left; reflexivity|right].
           destruct R as (es' & R). exists es'. change (removelast (x :: z :: r)) with (x :: removelast (z :: r)) in R.
           cbn [lookup] in R. rewrite E in R. exact R.
        -- destruct r as [|z r].
           ++ cbn [put]. destruct s as [|w s]; [reflexivity|]. rewrite B by exact N.
              destruct (place_dec (w :: s) []); [discriminate|reflexivity].
           ++ destruct R as (es' & R). change (removelast (x :: z :: r)) with (x :: removelast (z :: r)) in R.
              cbn [lookup] in R. rewrite E in R. discriminate.
      * destruct (place_dec (y :: s) (x :: r)); [congruence|reflexivity].
Qed.

(** ** Walking *)
Fixpoint vis (l : place_t) (ps : list string) : list place_t :=
  match ps with [] => [] | p :: r => next l p :: vis (next l p) r end.
Fixpoint dst (l : place_t) (ps : list string) : place_t :=
  match ps with [] => l | p :: r => dst (next l p) r end.

Lemma next_same : forall l p, p = "" \/ p = "." -> next l p = l.
Proof. intros l p [->| ->]; reflexivity. Qed.
Lemma next_down : forall l p, p <> "" -> p <> "." -> p <> ".." -> next l p = l ++ [p].
Proof.
  intros l p A B C. unfold next. apply String.eqb_neq in A, B, C. rewrite A, B, C. reflexivity.
Qed.
Lemma next_cases : forall l p, (p = "" \/ p = ".") /\ next l p = l \/ p = ".." /\ next l p = removelast l
  \/ p <> "" /\ p <> "." /\ p <> ".." /\ next l p = l ++ [p].
Proof.
  intros l p. destruct (string_dec p ""); [left; subst; auto|]. destruct (string_dec p "."); [left; subst; auto|].
  destruct (string_dec p ".."); [right; left; subst; auto|]. right; right. rewrite next_down by assumption. auto.
Qed.
Lemma passes_iff : forall l ps vs e, passes l ps vs e <-> vs = vis l ps /\ e = dst l ps.
Proof.
  intros l ps vs e. split.
  - intros H. induction H as [l|l p ps vs e P H (I1 & I2)|l ps vs e H (I1 & I2)|l p ps vs e A B C H (I1 & I2)]; cbn [vis dst].
    + auto.
    + rewrite next_same by exact P. subst. auto.
    + subst. auto.
    + rewrite next_down by assumption. subst. auto.
  - intros (-> & ->). revert l. induction ps as [|p ps IH]; intros l; cbn [vis dst]; [constructor|].
    destruct (next_cases l p) as [(P & E)|[(-> & E)|(A & B & C & E)]]; rewrite E.
    + apply passes_same; [exact P|apply IH].
    + apply passes_up. apply IH.
    + apply passes_down; try assumption. apply IH.
Qed.
Lemma vis_app : forall l a b, vis l (a ++ b) = vis l a ++ vis (dst l a) b.
Proof. intros l a. revert l. induction a as [|x a IH]; intros l b; cbn; [reflexivity|]. rewrite IH. reflexivity. Qed.
Lemma dst_app : forall l a b, dst l (a ++ b) = dst (dst l a) b.
Proof. intros l a. revert l. induction a as [|x a IH]; intros l b; cbn; [reflexivity|]. apply IH. Qed.
Lemma dst_in : forall l ps, In (dst l ps) (l :: vis l ps).
Proof.
  intros l ps. revert l. induction ps as [|p ps IH]; intros l; cbn [vis dst]; [left; reflexivity|].
  right. apply IH.
Qed.

Lemma walk_app : forall t l a b, walk t l (a ++ b) = match walk t l a with inl e => walk t e b | inr e => inr e end.
Proof.
  intros t l a. revert l. induction a as [|x a IH]; intros l b; cbn [app walk]; [reflexivity|].
  destruct (lookup t l) as [[c|es]|]; [reflexivity|apply IH|reflexivity].
Qed.
Lemma walk_dst : forall t l ps e, walk t l ps = inl e -> e = dst l ps.
Proof.
  intros t l ps. revert l. induction ps as [|p ps IH]; intros l e H; cbn [walk dst] in *; [congruence|].
  destruct (lookup t l) as [[c|es]|]; try discriminate. apply IH, H.
Qed.
Lemma walk_folders : forall t l ps, is_folder t l -> Forall (is_folder t) (vis l ps) -> walk t l ps = inl (dst l ps) /\ is_folder t (dst l ps).
Proof.
  intros t l ps. revert l. induction ps as [|p ps IH]; intros l L F; cbn [walk dst vis] in *; [auto|].
  inversion F as [|? ? F1 F2]; subst. destruct L as (es & ->). apply IH; assumption.
Qed.
Lemma walk_reach : forall t l ps e, walk t l ps = inl e -> is_folder t e -> is_folder t l /\ Forall (is_folder t) (vis l ps).
Proof.
  intros t l ps. revert l. induction ps as [|p ps IH]; intros l e H F; cbn [walk vis] in *; [injection H as ->; auto|].
  destruct (lookup t l) as [[c|es]|] eqn:L; try discriminate. apply IH in H as (A & B); [|exact F].
  split; [exists es; exact L|]. constructor; assumption.
Qed.
Lemma walk_notdir : forall t l ps, walk t l ps = inr NotADirectory -> exists v, In v (l :: vis l ps) /\ is_file t v.
Proof.
  intros t l ps. revert l. induction ps as [|p ps IH]; intros l H; cbn [walk vis] in *; [discriminate|].
  destruct (lookup t l) as [[c|es]|] eqn:L; try discriminate.
  - exists l. split; [left; reflexivity|]. exists c. exact L.
  - destruct (IH _ H) as (v & I & F). exists v. split; [right; exact I|exact F].
Qed.
Lemma walk_errors : forall t l ps e, walk t l ps = inr e -> e = NotADirectory \/ e = FileNotFound.
Proof.
  intros t l ps. revert l. induction ps as [|p ps IH]; intros l e H; cbn [walk] in *; [discriminate|].
  destruct (lookup t l) as [[c|es]|]; [injection H as <-; auto|eauto|injection H as <-; auto].
Qed.
Lemma file_not_folder : forall t l, is_file t l -> is_folder t l -> False.
Proof. intros t l (c & H) (es & G). unfold file_at in H. congruence. Qed.

Lemma is_dir_iff : forall t l ps, is_dir t l ps = true <-> walk t l ps = inl (dst l ps) /\ is_folder t (dst l ps).
Proof.
  intros t l ps. unfold is_dir. destruct (walk t l ps) as [e|e] eqn:W.
  - assert (E := walk_dst _ _ _ _ W). subst e. unfold is_folder. destruct (lookup t (dst l ps)) as [[c|es]|]; split; intros H; try discriminate; eauto.
    + destruct H as (_ & x & H). discriminate.
    + destruct H as (_ & x & H). discriminate.
  - split; [discriminate|]. intros (H & _). discriminate.
Qed.

(** ** Creating folders *)
Lemma only_same : forall t vs, only_folders t t vs.
Proof. intros t vs. split; [reflexivity|]. auto. Qed.
Lemma only_trans : forall t1 t2 t3 v1 v2 vs, only_folders t1 t2 v1 -> only_folders t2 t3 v2 -> incl v1 vs -> incl v2 vs ->
  only_folders t1 t3 vs.
Proof.
  intros t1 t2 t3 v1 v2 vs (A1 & A2 & A3) (B1 & B2 & B3) I1 I2. split; [|split].
  - intros l c. rewrite B1. apply A1.
  - intros l H. destruct (B2 _ H) as [G|G]; [|auto]. destruct (A2 _ G); auto.
  - auto.
Qed.
Lemma only_weaken : forall t t' v vs, only_folders t t' v -> incl v vs -> only_folders t t' vs.
Proof. intros t t' v vs (A & B & C) I. split; [exact A|]. split; [|exact C]. intros l H. destruct (B _ H); auto. Qed.

Lemma create_folder : forall t l x, is_folder t l -> lookup t (l ++ [x]) = None ->
  only_folders t (put (l ++ [x]) (Dir []) t) [l ++ [x]] /\ is_folder (put (l ++ [x]) (Dir []) t) (l ++ [x]).
Proof.
  intros t l x F N.
  assert (K : forall l', kind (lookup (put (l ++ [x]) (Dir []) t) l') = if place_dec l' (l ++ [x]) then AFolder else kind (lookup t l')).
  { intros l'. rewrite put_kind; [reflexivity|right; rewrite removelast_last; exact F|rewrite N; discriminate|left; reflexivity]. }
  split; [|apply kind_folder; rewrite K; destruct (place_dec _ _); congruence]. split; [|split].
  - intros l' c. rewrite <- !kind_file, K. destruct (place_dec l' (l ++ [x])) as [->|_]; [|reflexivity].
    rewrite N. cbn. split; discriminate.
  - intros l' H. apply kind_folder in H. rewrite K in H. destruct (place_dec l' (l ++ [x])) as [->|_]; [right; left; reflexivity|].
    left. apply kind_folder, H.
  - intros l' H. apply kind_folder. rewrite K. destruct (place_dec l' (l ++ [x])); [reflexivity|]. apply kind_folder, H.
Qed.

Lemma os_mkdir_snoc : forall t l ps p, os_mkdir t l (ps ++ [p]) =
  match walk t l ps with
  | inr e => (t, Some e)
  | inl l' => match lookup t l' with
              | None => (t, Some FileNotFound)
              | Some (File _) => (t, Some NotADirectory)
              | Some (Dir _) => if String.eqb p ".." then (t, Some FileExists)
                                else match lookup t (next l' p) with Some _ => (t, Some FileExists)
                                     | None => (put (next l' p) (Dir []) t, None) end
              end
  end.
Proof.
  intros t l ps p. unfold os_mkdir. rewrite removelast_last, last_last. destruct (ps ++ [p]) eqn:E; [|reflexivity].
  destruct ps; discriminate.
Qed.

Definition real (p : string) : Prop := p <> "" /\ p <> ".".
(** One folder in an existing one. *)
Lemma mkdir_last : forall t l ps p, real p -> is_folder t l -> Forall (is_folder t) (vis l ps) ->
  let v := next (dst l ps) p in
  (is_file t v /\ os_mkdir t l (ps ++ [p]) = (t, Some FileExists) /\ is_dir t l (ps ++ [p]) = false)
  \/ (is_folder t v /\ os_mkdir t l (ps ++ [p]) = (t, Some FileExists) /\ is_dir t l (ps ++ [p]) = true)
  \/ (exists t', os_mkdir t l (ps ++ [p]) = (t', None) /\ only_folders t t' [v] /\ is_folder t' v /\ ~ is_file t v).
Proof.
  intros t l ps p (R1 & R2) L F v. destruct (walk_folders _ _ _ L F) as (W & D). rewrite os_mkdir_snoc, W.
  assert (Dv : is_dir t l (ps ++ [p]) = match lookup t v with Some (Dir _) => true | _ => false end).
  { unfold is_dir. rewrite walk_app, W. cbn [walk]. destruct D as (es & ->). reflexivity. }
  assert (D' := D). destruct D' as (es & ->).
  destruct (next_cases (dst l ps) p) as [([H|H] & _)|[(-> & E)|(_ & _ & N & E)]]; [congruence|congruence| |].
  - right. left. cbn [String.eqb]. assert (Fv : is_folder t v) by (unfold v; rewrite E; apply folder_parent, D).
    split; [exact Fv|]. split; [reflexivity|]. rewrite Dv. destruct Fv as (es' & ->). reflexivity.
  - apply String.eqb_neq in N. rewrite N. fold v. rewrite Dv. destruct (lookup t v) as [[c|es']|] eqn:K.
    + left. split; [exists c; exact K|]. auto.
    + right. left. split; [exists es'; exact K|]. auto.
    + right. right. eexists. split; [reflexivity|]. unfold v in *. rewrite E in *.
      destruct (create_folder t (dst l ps) p D K) as (A & B). split; [exact A|]. split; [exact B|].
      intros (c & C). unfold file_at in C. congruence.
Qed.

Lemma mkdir_spec : forall ps t l, Forall real ps -> is_folder t l ->
  exists t' r, path_mkdir (length ps) t l ps = (t', r) /\ only_folders t t' (vis l ps)
    /\ ((exists v, In v (vis l ps) /\ is_file t v) -> r <> None)
    /\ ((forall v, In v (vis l ps) -> ~ is_file t v) -> r = None)
    /\ (r = None -> Forall (is_folder t') (vis l ps)).
Proof.
  induction ps as [|p ps IH] using rev_ind; intros t l R L.
  - exists t, None. cbn [length path_mkdir os_mkdir]. replace (is_dir t l []) with true by (symmetry; apply is_dir_iff; auto).
    split; [reflexivity|]. split; [apply only_same|]. split; [intros (v & [] & _)|]. split; [reflexivity|constructor].
  - apply Forall_app in R as (R & Rp). inversion Rp as [|? ? Rp1 _]; subst. clear Rp.
    rewrite app_length. cbn [length]. rewrite Nat.add_1_r. rewrite vis_app. cbn [vis].
    set (v := next (dst l ps) p).
    (* the last step, when the folders before exist in a tree t1 *)
    assert (Last : forall t1, only_folders t t1 (vis l ps) -> Forall (is_folder t1) (vis l ps) ->
      exists t' r, match os_mkdir t1 l (ps ++ [p]) with
                   | (t2, None) => (t2, None)
                   | (_, Some FileNotFound) => (t1, Some FileNotFound)
                   | (_, Some e) => if is_dir t1 l (ps ++ [p]) then (t1, None) else (t1, Some e)
                   end = (t', r) /\ (forall t2, os_mkdir t1 l (ps ++ [p]) <> (t2, Some FileNotFound))
        /\ only_folders t t' (vis l ps ++ [v])
        /\ ((exists v', In v' (vis l ps ++ [v]) /\ is_file t v') -> r <> None)
        /\ ((forall v', In v' (vis l ps ++ [v]) -> ~ is_file t v') -> r = None)
        /\ (r = None -> Forall (is_folder t') (vis l ps ++ [v]))).
    { intros t1 O1 F1. assert (L1 : is_folder t1 l) by (apply O1; exact L).
      assert (Keep : forall x, is_file t1 x <-> is_file t x) by (intros x; unfold is_file; split; intros (c & C); exists c; apply O1, C).
      assert (Only : forall t', only_folders t1 t' [v] -> only_folders t t' (vis l ps ++ [v]))
        by (intros t' O; eapply only_trans; [exact O1|exact O|apply incl_appl, incl_refl|apply incl_appr, incl_refl]).
      assert (Vs : forall x, In x (vis l ps ++ [v]) -> is_file t x -> x = v).
      { intros x I X. apply in_app_or in I as [I|[I|[]]]; [|auto]. exfalso. rewrite Forall_forall in F1.
        apply (file_not_folder t1 x); [apply Keep, X|apply F1, I]. }
      destruct (mkdir_last t1 l ps p Rp1 L1 F1) as [(X & -> & ->)|[(X & -> & ->)|(t' & -> & O & X & N)]].
      - exists t1, (Some FileExists). split; [reflexivity|]. split; [discriminate|]. split; [apply Only, only_same|].
        split; [discriminate|]. split; [|discriminate]. intros H. destruct (H v); [apply in_or_app; right; left; reflexivity|apply Keep, X].
      - exists t1, None. split; [reflexivity|]. split; [discriminate|]. split; [apply Only, only_same|]. split; [|split; [reflexivity|]].
        + intros (x & I & Fx). rewrite (Vs x I Fx) in Fx. destruct (file_not_folder t1 v); [apply Keep, Fx|exact X].
        + intros _. apply Forall_app. auto.
      - exists t', None. split; [reflexivity|]. split; [discriminate|]. split; [apply Only, O|]. split; [|split; [reflexivity|]].
        + intros (x & I & Fx). rewrite (Vs x I Fx) in Fx. destruct N. apply Keep, Fx.
        + intros _. apply Forall_app. split; [|auto]. eapply Forall_impl; [|exact F1]. intros x. apply O. }
    destruct (walk t l ps) as [e|e] eqn:W.
    + assert (E := walk_dst _ _ _ _ W). subst e. destruct (lookup t (dst l ps)) as [[c|es]|] eqn:K.
      * (* a file in the way *)
        assert (OM : os_mkdir t l (ps ++ [p]) = (t, Some NotADirectory)) by (rewrite os_mkdir_snoc, W, K; reflexivity).
        assert (ID : is_dir t l (ps ++ [p]) = false) by (unfold is_dir; rewrite walk_app, W; cbn [walk]; rewrite K; reflexivity).
        cbn [path_mkdir]. rewrite OM, ID. exists t, (Some NotADirectory). split; [reflexivity|]. split; [apply only_same|].
        split; [discriminate|]. split; [|discriminate]. intros H. exfalso.
        destruct (dst_in l ps) as [I|I]; [rewrite <- I in K; destruct L as (x & L); congruence|].
        apply (H (dst l ps)); [apply in_or_app; auto|]. exists c. exact K.
      * assert (F : Forall (is_folder t) (vis l ps)) by (apply (walk_reach t l ps _ W); exists es; exact K).
        destruct (Last t (only_same _ _) F) as (t' & r & E & NF & G). cbn [path_mkdir]. exists t', r. split; [|exact G].
        destruct (os_mkdir t l (ps ++ [p])) as [t2 [[]|]] eqn:OM; try exact E. destruct (NF _ eq_refl).
      * assert (OM : os_mkdir t l (ps ++ [p]) = (t, Some FileNotFound)) by (rewrite os_mkdir_snoc, W, K; reflexivity).
        cbn [path_mkdir]. rewrite OM, removelast_last. destruct (IH t l R L) as (t1 & r1 & E1 & O1 & A1 & B1 & C1). rewrite E1.
        destruct r1 as [e|].
        -- exists t1, (Some e). split; [reflexivity|]. split; [eapply only_weaken; [exact O1|apply incl_appl, incl_refl]|].
           split; [discriminate|]. split; [|discriminate]. intros H. apply B1. intros x I. apply H. apply in_or_app. auto.
        -- destruct (Last t1 O1 (C1 eq_refl)) as (t' & r & E & _ & G). exists t', r. split; [exact E|exact G].
    + assert (OM : os_mkdir t l (ps ++ [p]) = (t, Some e)) by (rewrite os_mkdir_snoc, W; reflexivity).
      destruct (walk_errors _ _ _ _ W) as [-> | ->].
      * assert (ID : is_dir t l (ps ++ [p]) = false) by (unfold is_dir; rewrite walk_app, W; reflexivity).
        cbn [path_mkdir]. rewrite OM, ID. exists t, (Some NotADirectory). split; [reflexivity|]. split; [apply only_same|].
        split; [discriminate|]. split; [|discriminate]. intros H. exfalso. apply walk_notdir in W as (x & [<-|I] & X).
        -- destruct (file_not_folder t l X L).
        -- apply (H x); [apply in_or_app; auto|exact X].
      * cbn [path_mkdir]. rewrite OM, removelast_last. destruct (IH t l R L) as (t1 & r1 & E1 & O1 & A1 & B1 & C1). rewrite E1.
        destruct r1 as [e|].
        -- exists t1, (Some e). split; [reflexivity|]. split; [eapply only_weaken; [exact O1|apply incl_appl, incl_refl]|].
           split; [discriminate|]. split; [|discriminate]. intros H. apply B1. intros x I. apply H. apply in_or_app. auto.
        -- destruct (Last t1 O1 (C1 eq_refl)) as (t' & r & E & _ & G). exists t', r. split; [exact E|exact G].
Qed.
