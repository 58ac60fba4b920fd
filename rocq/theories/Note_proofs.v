(** * Proofs about the note on simple types *)
From Coq Require Import Sorted.
From Verif Require Import Base PyNum PyStr Ast Size Processor Bundle CCommon GenCfs Lib_proofs
  Spec_Check Spec_Grammar Spec_Bundle Enum_proofs Check_proofs Bundle_proofs.
Open Scope list_scope.

Lemma add_use_nodup : forall s n uses,
  Forall (fun kv => NoDup (snd kv)) uses -> Forall (fun kv => NoDup (snd kv)) (add_use s n uses).
Proof.
  intros s n uses. induction uses as [|[k v] r IH]; simpl; intros H.
  - constructor; [|constructor]. simpl. constructor; [simpl; tauto | constructor].
  - inversion H as [|? ? H1 H2]; subst. destruct (String.eqb s k); constructor; auto.
    simpl in *. destruct (mem n v) eqn:E; [exact H1|]. apply mem_not_In in E.
    apply NoDup_app_iff. split; [exact H1|]. split; [constructor; [simpl; tauto | constructor]|].
    intros x Hx [<-|[]]. contradiction.
Qed.

Lemma build_users_nodup : forall ms b,
  build ms = Ok b -> Forall (fun kv => NoDup (snd kv)) (b_uses b).
Proof.
  intros ms b H. unfold build in H. inv_ok. simpl.
  assert (G : forall l u, Forall (fun kv : string * list string => NoDup (snd kv)) u ->
     Forall (fun kv : string * list string => NoDup (snd kv)) (fold_left module_uses l u)).
  { induction l as [|m r IH]; simpl; intros u Hu; [exact Hu|]. apply IH. unfold module_uses.
    revert u Hu. generalize (parse_for_simple_defs m). intros ss.
    induction ss as [|s ss IHs]; simpl; intros u Hu; [exact Hu|]. apply IHs, add_use_nodup, Hu. }
  apply G. constructor.
Qed.

(** An empty set of users is never recorded. *)
Lemma add_use_nonempty : forall s n uses,
  Forall (fun kv => snd kv <> []) uses -> Forall (fun kv => snd kv <> []) (add_use s n uses).
Proof.
  intros s n uses. induction uses as [|[k v] r IH]; simpl; intros H.
  - constructor; [discriminate | constructor].
  - inversion H as [|? ? H1 H2]; subst. destruct (String.eqb s k); constructor; auto.
    simpl in *. destruct (mem n v); [exact H1 | destruct v; discriminate].
Qed.

Lemma build_users_nonempty : forall ms b,
  build ms = Ok b -> Forall (fun kv => snd kv <> []) (b_uses b).
Proof.
  intros ms b H. unfold build in H. inv_ok. simpl.
  assert (G : forall l u, Forall (fun kv : string * list string => snd kv <> []) u ->
     Forall (fun kv : string * list string => snd kv <> []) (fold_left module_uses l u)).
  { induction l as [|m r IH]; simpl; intros u Hu; [exact Hu|]. apply IH. unfold module_uses.
    revert u Hu. generalize (parse_for_simple_defs m). intros ss.
    induction ss as [|s ss IHs]; simpl; intros u Hu; [exact Hu|]. apply IHs, add_use_nonempty, Hu. }
  apply G. constructor.
Qed.

Lemma insert_sorted_perm : forall s l, Permutation (s :: l) (insert_sorted s l).
Proof.
  intros s l. induction l as [|x r IH]; simpl; [constructor; constructor|].
  destruct (String.leb s x); [apply Permutation_refl|].
  eapply perm_trans; [apply perm_swap|]. constructor. exact IH.
Qed.

Lemma sort_names_perm : forall l, Permutation l (sort_names l).
Proof.
  induction l as [|x r IH]; simpl; [constructor|].
  eapply perm_trans; [constructor; exact IH|]. apply insert_sorted_perm.
Qed.

Definition sle (a b : string) : Prop := String.leb a b = true.

Lemma insert_sorted_sorted : forall s l, LocallySorted sle l -> LocallySorted sle (insert_sorted s l).
Proof.
  intros s l H. induction H as [|x|x y l Hl IH Hxy]; simpl.
  - constructor.
  - destruct (String.leb s x) eqn:E.
    + constructor; [constructor | exact E].
    + constructor; [constructor|]. destruct (String.leb_total s x); unfold sle; [congruence|assumption].
  - destruct (String.leb s x) eqn:E.
    + constructor; [constructor; assumption | exact E].
    + simpl in IH. destruct (String.leb s y) eqn:Ey.
      * constructor; [exact IH|]. destruct (String.leb_total s x); unfold sle; [congruence|assumption].
      * constructor; assumption.
Qed.

Lemma sort_names_sorted : forall l, LocallySorted sle (sort_names l).
Proof.
  induction l as [|x r IH]; simpl; [constructor|]. apply insert_sorted_sorted. exact IH.
Qed.

Lemma note_text : forall names input b n t,
  Forall (fun m => grammatical m = true) input -> build_from_config names input = Ok b ->
  ((forall m, In m input -> ~ uses_type m n) /\ cfs_note b n t = Ok None)
  \/ exists users,
       users <> [] /\ NoDup users /\ LocallySorted sle users
       /\ (forall x, In x users <-> exists m, In m input /\ x = mod_name m /\ uses_type m n)
       /\ cfs_note b n t =
            bind (simple_size t) (fun s =>
              Ok (Some ("// NOTE: The simple type '" ++ n ++ "' has been generated to a C "
                ++ (if existsb (Z.eqb s) [8; 16; 32; 64]%Z then "builtin" else "bitfield")
                ++ " type and is used directly in "
                ++ String.concat ", " (map (fun u => "'" ++ u ++ "'") users))))%string.
Proof.
  intros names input b n t Hg H. destruct (recorded_users _ _ _ Hg H) as [Hk Hu].
  destruct (build_from_config_inv _ _ _ H) as (ms & _ & Hb & _).
  assert (Hn := build_users_nodup ms b Hb). rewrite Forall_forall in Hn.
  assert (Hne := build_users_nonempty ms b Hb). rewrite Forall_forall in Hne.
  unfold cfs_note. destruct (find (fun kv => String.eqb (fst kv) n) (b_uses b)) as [[k users]|] eqn:E.
  - right. apply find_some in E. destruct E as [Hin Hkn]. simpl in Hkn. apply String.eqb_eq in Hkn. subst k.
    exists (sort_names users). assert (Hp := sort_names_perm users).
    split; [|split; [|split; [|split]]].
    + intros E. rewrite E in Hp. apply Permutation_sym, Permutation_nil in Hp.
      apply (Hne _ Hin). simpl. exact Hp.
    + eapply Permutation_NoDup; [exact Hp|]. exact (Hn _ Hin).
    + apply sort_names_sorted.
    + intros x. rewrite <- Hu. split.
      * intros Hx. exists users. split; [exact Hin|]. eapply Permutation_in; [apply Permutation_sym; exact Hp | exact Hx].
      * intros (l & Hl & Hx). assert (l = users).
        { clear - Hk Hl Hin. revert Hk Hl Hin. generalize (b_uses b). intros us.
          induction us as [|[k v] r IH]; simpl; [tauto|]. intros Hk [H1|H1] [H2|H2].
          - congruence.
          - injection H1 as -> ->. inversion Hk as [|? ? Hx _]; subst. exfalso. apply Hx.
            apply (in_map fst) in H2. exact H2.
          - injection H2 as -> ->. inversion Hk as [|? ? Hx _]; subst. exfalso. apply Hx.
            apply (in_map fst) in H1. exact H1.
          - inversion Hk; subst. auto. }
        subst l. eapply Permutation_in; [exact Hp | exact Hx].
    + reflexivity.
  - left. split; [|reflexivity]. intros m Hm Hus.
    assert (G : uses_of n (b_uses b) (mod_name m)) by (apply Hu; exists m; auto).
    destruct G as (l & Hin & _). assert (F := find_none _ _ E _ Hin). simpl in F.
    rewrite String.eqb_refl in F. discriminate.
Qed.
