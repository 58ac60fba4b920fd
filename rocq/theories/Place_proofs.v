(** * Proofs: the order of the definitions in generated C files *)
From Coq Require Import Sorting.Permutation Sorting.Sorted Lia.
From Verif Require Import Base PyNum PyStr Ast Size Processor Bundle Sorter Spec_Grammar Spec_Check Spec_Order Spec_Bundle Spec_Place Lib_proofs Bundle_proofs Accept_proofs Field_proofs Cfs_proofs Order_proofs.
Open Scope nat_scope.
Open Scope list_scope.

(** ** One round *)

Definition types (d : definition) : list string := map (fun k => type_name (m_type k)) (def_children d).

Lemma all_defined_iff : forall defined d, all_defined defined d = true <-> forall t, In t (types d) -> In t defined.
Proof.
  intros defined d. unfold all_defined, types. rewrite forallb_forall. split.
  - intros H t Ht. apply in_map_iff in Ht. destruct Ht as (k & <- & Hk). specialize (H k Hk). apply mem_In. exact H.
  - intros H k Hk. apply mem_In. apply H. apply (in_map (fun k => type_name (m_type k))). exact Hk.
Qed.

Definition tagged := list (nat * definition).

Lemma sort_pass_tagged : forall (T : tagged) done defined done' defined' rest, StronglySorted lt (map fst T) ->
  sort_pass (map snd T) done defined = (done', defined', rest) ->
  exists W R : tagged, Permutation (W ++ R) T /\ StronglySorted lt (map fst W) /\ StronglySorted lt (map fst R)
    /\ done' = done ++ map snd W /\ defined' = defined ++ map def_name (map snd W) /\ rest = map snd R
    /\ (forall i d, In (i, d) W -> forall t, In t (types d) -> In t defined \/ exists j d', In (j, d') W /\ j < i /\ def_name d' = t)
    /\ (forall i d, In (i, d) R -> ~ forall t, In t (types d) -> In t defined \/ exists j d', In (j, d') W /\ j < i /\ def_name d' = t).
Proof.
  induction T as [|(i, d) T IH]; intros done defined done' defined' rest St H; cbn [map sort_pass] in H.
  - injection H as <- <- <-. exists [], []. cbn [map app]. rewrite !app_nil_r. split; [apply perm_nil|].
    split; [constructor|]. split; [constructor|]. split; [reflexivity|]. split; [reflexivity|]. split; [reflexivity|]. split; intros ? ? [].
  - cbn [map fst snd] in *. inversion St as [|? ? St' Hlt]; subst. rewrite Forall_forall in Hlt.
    assert (Ht : forall j d', In (j, d') T -> i < j) by (intros j d' Hj; apply Hlt; apply (in_map fst) in Hj; exact Hj).
    destruct (all_defined defined d) eqn:A.
    + destruct (IH _ _ _ _ _ St' H) as (W & R & P & SW & SR & -> & -> & -> & HW & HR).
      assert (HWT : forall x, In x W -> In x T) by (intros x Hx; apply (Permutation_in _ P); apply in_or_app; left; exact Hx).
      assert (HRT : forall x, In x R -> In x T) by (intros x Hx; apply (Permutation_in _ P); apply in_or_app; right; exact Hx).
      exists ((i, d) :: W), R. split; [cbn [app]; apply perm_skip; exact P|].
      split. { cbn [map fst]. constructor; [exact SW|]. apply Forall_forall. intros j Hj. apply in_map_iff in Hj.
               destruct Hj as ((j', d') & <- & Hj). exact (Ht _ _ (HWT _ Hj)). }
      split; [exact SR|]. cbn [map snd]. rewrite <- !app_assoc. cbn [app].
      split; [reflexivity|]. split; [reflexivity|]. split; [reflexivity|]. split.
      * intros i0 d0 [E|H0] t Htt.
        -- injection E as <- <-. left. apply (proj1 (all_defined_iff _ _) A _ Htt).
        -- destruct (HW _ _ H0 _ Htt) as [I|(j & d' & Hj & Hlt' & E)].
           ++ apply in_app_or in I. destruct I as [I|[E|[]]]; [left; exact I|]. right. exists i, d. split; [left; reflexivity|].
              split; [exact (Ht _ _ (HWT _ H0))|exact E].
           ++ right. exists j, d'. split; [right; exact Hj|]. split; assumption.
      * intros i0 d0 H0 X. apply (HR _ _ H0). intros t Htt. destruct (X t Htt) as [I|(j & d' & [E|Hj] & Hlt' & E')].
        -- left. apply in_or_app. left. exact I.
        -- injection E as <- <-. left. apply in_or_app. right. left. exact E'.
        -- right. exists j, d'. split; [exact Hj|]. split; assumption.
    + destruct (sort_pass (map snd T) done defined) as ((q1, q2), q3) eqn:Q. injection H as <- <- <-.
      destruct (IH _ _ _ _ _ St' Q) as (W & R & P & SW & SR & -> & -> & -> & HW & HR).
      assert (HWT : forall x, In x W -> In x T) by (intros x Hx; apply (Permutation_in _ P); apply in_or_app; left; exact Hx).
      assert (HRT : forall x, In x R -> In x T) by (intros x Hx; apply (Permutation_in _ P); apply in_or_app; right; exact Hx).
      exists W, ((i, d) :: R). split; [symmetry; apply Permutation_cons_app; symmetry; exact P|]. split; [exact SW|].
      split. { cbn [map fst]. constructor; [exact SR|]. apply Forall_forall. intros j Hj. apply in_map_iff in Hj.
               destruct Hj as ((j', d') & <- & Hj). exact (Ht _ _ (HRT _ Hj)). }
      split; [reflexivity|]. split; [reflexivity|]. split; [reflexivity|]. split; [exact HW|].
      intros i0 d0 [E|H0] X; [|exact (HR _ _ H0 X)]. injection E as <- <-.
      assert (A' : all_defined defined d = true); [|congruence]. apply all_defined_iff. intros t Htt.
      destruct (X t Htt) as [I|(j & d' & Hj & Hlt' & _)]; [exact I|]. specialize (Ht _ _ (HWT _ Hj)). lia.
Qed.

(** ** All rounds *)

Definition can (rounds : nat -> nat) (T : tagged) (defined : list string) (i : nat) (d : definition) (n : nat) : Prop :=
  forall t, In t (types d) -> In t defined
    \/ exists j d', In (j, d') T /\ def_name d' = t /\ (rounds j < n \/ (rounds j = n /\ j < i)).
Definition before (rounds : nat -> nat) (i j : nat) : Prop := rounds i < rounds j \/ (rounds i = rounds j /\ i < j).

Lemma sorted_app : forall A (R : A -> A -> Prop) l l', StronglySorted R l -> StronglySorted R l' ->
  (forall x y, In x l -> In y l' -> R x y) -> StronglySorted R (l ++ l').
Proof.
  intros A R l l' H H' X. induction H as [|a l S IH F]; [exact H'|]. cbn [app]. constructor.
  - apply IH. intros x y Hx Hy. apply X; [right; exact Hx|exact Hy].
  - apply Forall_app. split; [exact F|]. apply Forall_forall. intros y Hy. apply X; [left; reflexivity|exact Hy].
Qed.
Lemma sorted_weaken : forall A (R R' : A -> A -> Prop) l, StronglySorted R l ->
  (forall x y, In x l -> In y l -> R x y -> R' x y) -> StronglySorted R' l.
Proof.
  intros A R R' l H X. induction H as [|a l S IH F]; constructor.
  - apply IH. intros x y Hx Hy. apply X; right; assumption.
  - rewrite Forall_forall in *. intros y Hy. apply X; [left; reflexivity|right; exact Hy|apply F, Hy].
Qed.
Lemma sorted_lt_nodup : forall l, StronglySorted lt l -> NoDup l.
Proof.
  intros l H. induction H as [|a l S IH F]; constructor; [|exact IH]. intros I. rewrite Forall_forall in F. specialize (F _ I). lia.
Qed.

Lemma sort_loop_tagged : forall fuel (T : tagged) done defined out, StronglySorted lt (map fst T) ->
  sort_loop fuel (map snd T) done defined = Ok out ->
  exists rounds (P : tagged), Permutation P T /\ StronglySorted (before rounds) (map fst P) /\ out = done ++ map snd P
    /\ forall i d, In (i, d) T -> can rounds T defined i d (rounds i) /\ forall n, can rounds T defined i d n -> rounds i <= n.
Proof.
  induction fuel as [|fuel IH]; intros T done defined out St H.
  - destruct T as [|x T]; cbn [map sort_loop] in H; [|discriminate]. injection H as <-.
    exists (fun _ => 0), []. rewrite app_nil_r. split; [apply perm_nil|]. split; [constructor|]. split; [reflexivity|]. intros ? ? [].
  - destruct T as [|x T0]; [cbn [map sort_loop] in H; injection H as <-;
      exists (fun _ => 0), []; rewrite app_nil_r; (split; [apply perm_nil|split; [constructor|split; [reflexivity|intros ? ? []]]])|].
    set (T := x :: T0) in *. cbn [sort_loop] in H.
    assert (E : exists y l, map snd T = y :: l) by (unfold T; cbn [map]; eauto). destruct E as (y & l & E). rewrite E in H.
    rewrite <- E in H. clear y l E.
    destruct (sort_pass (map snd T) done defined) as ((done', defined'), rest) eqn:Q.
    destruct (sort_pass_tagged _ _ _ _ _ _ St Q) as (W & R & P & SW & SR & -> & -> & -> & HW & HR).
    destruct (IH R _ _ _ SR H) as (r' & P' & PP & SP & -> & L).
    assert (ND : NoDup (map fst W ++ map fst R)).
    { rewrite <- map_app. eapply Permutation_NoDup; [apply Permutation_map; symmetry; exact P|]. apply sorted_lt_nodup. exact St. }
    set (rounds := fun i => if existsb (Nat.eqb i) (map fst W) then 0 else S (r' i)).
    assert (R0 : forall i, In i (map fst W) -> rounds i = 0).
    { intros i Hi. unfold rounds. replace (existsb (Nat.eqb i) (map fst W)) with true; [reflexivity|]. symmetry.
      apply existsb_exists. exists i. split; [exact Hi|apply Nat.eqb_refl]. }
    assert (R1 : forall i, In i (map fst R) -> rounds i = S (r' i)).
    { intros i Hi. unfold rounds. replace (existsb (Nat.eqb i) (map fst W)) with false; [reflexivity|]. symmetry.
      apply Bool.not_true_iff_false. intros X. apply existsb_exists in X. destruct X as (j & Hj & X). apply Nat.eqb_eq in X. subst j.
      clear - ND Hi Hj. induction (map fst W) as [|a l IHl]; [destruct Hj|]. cbn [app] in ND. inversion ND; subst.
      destruct Hj as [->|Hj]; [|apply IHl; assumption]. match goal with X : ~ In _ _ |- _ => apply X end. apply in_or_app. right. exact Hi. }
    assert (IW : forall i d, In (i, d) W -> In i (map fst W)) by (intros i d Hi; apply (in_map fst) in Hi; exact Hi).
    assert (IR : forall i d, In (i, d) R -> In i (map fst R)) by (intros i d Hi; apply (in_map fst) in Hi; exact Hi).
    assert (WT : forall z, In z W -> In z T) by (intros z Hz; apply (Permutation_in _ P); apply in_or_app; left; exact Hz).
    assert (RT : forall z, In z R -> In z T) by (intros z Hz; apply (Permutation_in _ P); apply in_or_app; right; exact Hz).
    exists rounds, (W ++ P'). split; [rewrite PP; exact P|]. split; [|split].
    + rewrite map_app. apply sorted_app.
      * eapply sorted_weaken; [exact SW|]. intros a b Ha Hb Hab. right. rewrite (R0 _ Ha), (R0 _ Hb). split; [reflexivity|exact Hab].
      * assert (IP : forall i, In i (map fst P') -> In i (map fst R)).
        { intros i Hi. eapply Permutation_in; [apply Permutation_map; exact PP|exact Hi]. }
        eapply sorted_weaken; [exact SP|]. intros a b Ha Hb. unfold before. rewrite (R1 _ (IP _ Ha)), (R1 _ (IP _ Hb)). lia.
      * intros a b Ha Hb. left. rewrite (R0 _ Ha), (R1 b); [lia|]. eapply Permutation_in; [apply Permutation_map; exact PP|exact Hb].
    + rewrite map_app, app_assoc. reflexivity.
    + intros i d Hid. apply (Permutation_in _ (Permutation_sym P)) in Hid. apply in_app_or in Hid. destruct Hid as [Hid|Hid].
      * rewrite (R0 _ (IW _ _ Hid)). split; [|intros n _; lia]. intros t Ht. destruct (HW _ _ Hid _ Ht) as [I|(j & d' & Hj & Hlt & E)]; [left; exact I|].
        right. exists j, d'. split; [apply WT; exact Hj|]. split; [exact E|]. right. split; [exact (R0 _ (IW _ _ Hj))|exact Hlt].
      * rewrite (R1 _ (IR _ _ Hid)). destruct (L _ _ Hid) as (L1 & L2). split.
        -- intros t Ht. destruct (L1 t Ht) as [I|(j & d' & Hj & E & X)].
           ++ apply in_app_or in I. destruct I as [I|I]; [left; exact I|]. right. apply in_map_iff in I. destruct I as (d' & E & I).
              apply in_map_iff in I. destruct I as ((j, d'') & E' & I). cbn in E'. subst d''. exists j, d'. split; [apply WT; exact I|].
              split; [exact E|]. left. rewrite (R0 _ (IW _ _ I)). lia.
           ++ right. exists j, d'. split; [apply RT; exact Hj|]. split; [exact E|]. rewrite (R1 _ (IR _ _ Hj)). lia.
        -- intros n C. destruct n as [|n].
           ++ exfalso. apply (HR _ _ Hid). intros t Ht. destruct (C t Ht) as [I|(j & d' & Hj & E & X)]; [left; exact I|].
              right. exists j, d'. apply (Permutation_in _ (Permutation_sym P)) in Hj. apply in_app_or in Hj. destruct Hj as [Hj|Hj].
              ** split; [exact Hj|]. split; [lia|exact E].
              ** rewrite (R1 _ (IR _ _ Hj)) in X. lia.
           ++ apply le_n_S. apply L2. intros t Ht. destruct (C t Ht) as [I|(j & d' & Hj & E & X)]; [left; apply in_or_app; left; exact I|].
              apply (Permutation_in _ (Permutation_sym P)) in Hj. apply in_app_or in Hj. destruct Hj as [Hj|Hj].
              ** left. apply in_or_app. right. rewrite <- E. apply in_map. apply (in_map snd) in Hj. exact Hj.
              ** right. exists j, d'. split; [exact Hj|]. split; [exact E|]. rewrite (R1 _ (IR _ _ Hj)) in X. lia.
Qed.

(** ** In the words of the specification *)

Lemma nth_tagged : forall (l : list definition) s i d, In (i, d) (combine (seq s (length l)) l) <-> (s <= i /\ nth_error l (i - s) = Some d).
Proof.
  induction l as [|x l IH]; intros s i d; cbn [length seq combine In].
  - split; [intros []|]. intros (_ & H). destruct (i - s); discriminate.
  - rewrite IH. split.
    + intros [E|(L & H)]; [injection E as -> ->; split; [lia|rewrite Nat.sub_diag; reflexivity]|].
      split; [lia|]. replace (i - s) with (S (i - S s)) by lia. exact H.
    + intros (L & H). destruct (Nat.eq_dec s i) as [->|N].
      * left. rewrite Nat.sub_diag in H. injection H as ->. reflexivity.
      * right. split; [lia|]. replace (i - s) with (S (i - S s)) in H by lia. exact H.
Qed.
Lemma fst_combine : forall (l : list definition) s, map fst (combine (seq s (length l)) l) = seq s (length l).
Proof. induction l as [|x l IH]; intros s; cbn [length seq combine map fst]; [reflexivity|]. rewrite IH. reflexivity. Qed.
Lemma snd_combine : forall (l : list definition) s, map snd (combine (seq s (length l)) l) = l.
Proof. induction l as [|x l IH]; intros s; cbn [length seq combine map snd]; [reflexivity|]. rewrite IH. reflexivity. Qed.
Lemma seq_sorted : forall n s, StronglySorted lt (seq s n).
Proof.
  induction n as [|n IH]; intros s; cbn [seq]; constructor; [apply IH|]. apply Forall_forall. intros x Hx. apply in_seq in Hx. lia.
Qed.

Lemma sorted_in_rounds : forall fuel m l,
  (forall d k, In d (mod_defs m) -> In k (members_of d) -> type_ok (m_type k) = true /\ element (m_type k) <> TNull) ->
  types_defined m -> NoDup (map def_name (mod_defs m)) -> sorted_definitions fuel m = Ok l -> in_rounds m l.
Proof.
  intros fuel m l Hk Ht ND H. unfold sorted_definitions in H.
  set (T := combine (seq 0 (length (mod_defs m))) (mod_defs m)).
  rewrite <- (snd_combine (mod_defs m) 0) in H. fold T in H.
  apply sort_loop_tagged in H; [|unfold T; rewrite fst_combine; apply seq_sorted].
  destruct H as (rounds & P & PP & SP & -> & L). cbn [app].
  assert (TI : forall i d, In (i, d) T <-> nth_error (mod_defs m) i = Some d).
  { intros i d. unfold T. rewrite nth_tagged, Nat.sub_0_r. split; [intros (_ & X); exact X|intros X; split; [lia|exact X]]. }
  assert (CR : forall i d n, nth_error (mod_defs m) i = Some d -> can rounds T (initially_defined m) i d n <-> ready m rounds i d n).
  { intros i d n Hi. assert (Hd := nth_error_In _ _ Hi). split.
    - intros C j d' Hj (k & Hkd & E & NI). assert (Et : type_name (m_type k) = def_name d') by exact (element_name _ _ E).
      destruct (C (def_name d')) as [I|(j' & d2 & Hj' & E' & X)].
      + unfold types. rewrite children_members, <- Et. apply (in_map (fun k => type_name (m_type k))). exact Hkd.
      + exfalso. unfold initially_defined in I. apply in_app_or in I. destruct I as [I|I].
        * destruct (Hk d k Hd Hkd) as (T1 & T2). apply (element_known _ _ T1 T2) in E. apply (proj2 E). exact I.
        * apply NI. unfold flatten in I. apply in_concat in I. destruct I as (ns & I & I'). apply in_map_iff in I. destruct I as (it & <- & I).
          exists it. split; assumption.
      + apply TI in Hj'. assert (j' = j); [|subst j'; exact X]. rewrite NoDup_nth_error in ND. apply ND.
        * rewrite map_length. apply nth_error_Some. congruence.
        * rewrite !nth_error_map, Hj, Hj'. cbn. congruence.
    - intros R t Htt. destruct (mem t (initially_defined m)) eqn:M; [left; apply mem_In; exact M|]. right.
      assert (N : ~ In t (initially_defined m)) by (intros I; apply mem_In in I; congruence).
      unfold types in Htt. rewrite children_members in Htt. apply in_map_iff in Htt. destruct Htt as (k & <- & Hkd).
      destruct (Hk d k Hd Hkd) as (T1 & T2).
      assert (En : element (m_type k) = TName (type_name (m_type k))).
      { apply element_known; try assumption. split; [reflexivity|]. intros G. apply N. unfold initially_defined. apply in_or_app. left. exact G. }
      assert (NI : ~ imported m (type_name (m_type k))).
      { intros (it & I1 & I2). apply N. unfold initially_defined. apply in_or_app. right. unfold flatten. apply in_concat.
        exists (imp_names it). split; [apply in_map; exact I1|exact I2]. }
      destruct (Ht d k _ Hd Hkd En) as [Hi'|Hi'].
      + exfalso. apply N. unfold initially_defined. apply in_or_app. right. exact Hi'.
      + unfold defined_names in Hi'. apply in_map_iff in Hi'. destruct Hi' as (d' & E' & Hd'). apply In_nth_error in Hd'. destruct Hd' as (j & Hj).
        exists j, d'. split; [apply TI; exact Hj|]. split; [exact E'|]. apply (R j d' Hj). rewrite E'. exists k. repeat split; assumption. }
  exists rounds, (map fst P). split; [|split; [|split]].
  - intros i d Hi. destruct (L i d (proj2 (TI i d) Hi)) as (L1 & L2). split; [apply CR; assumption|].
    intros n R. apply L2. apply CR; assumption.
  - rewrite <- (fst_combine (mod_defs m) 0). apply Permutation_map. exact PP.
  - exact SP.
  - rewrite !map_map. apply map_ext_in. intros (i, d) HP. apply (Permutation_in _ PP) in HP. apply TI in HP. cbn [fst snd]. symmetry. exact HP.
Qed.

(** ** The modules of the input *)

Lemma nth_Forall2 : forall A B (R : A -> B -> Prop) l l', Forall2 R l l' -> forall i y, nth_error l' i = Some y -> exists x, nth_error l i = Some x /\ R x y.
Proof.
  intros A B R l l' H. induction H as [|x y l l' Hxy _ IH]; intros [|i] z E; cbn in *; try discriminate.
  - injection E as <-. exists x. auto.
  - apply IH. exact E.
Qed.

Lemma same_needs : forall m m' d d' n, mod_imports m' = mod_imports m -> same_definition d d' -> needs m d n <-> needs m' d' n.
Proof.
  intros m m' d d' n Ei S. unfold needs, imported. rewrite Ei, (same_definition_members _ _ S). reflexivity.
Qed.

Lemma same_in_rounds : forall m m' order sorted, same_module m m' -> NoDup (map def_name (mod_defs m)) ->
  Permutation order (mod_defs m) -> Forall2 same_definition order sorted -> in_rounds m' sorted -> in_rounds m order.
Proof.
  intros m m' order sorted (_ & _ & Ei & F) ND P Fo (rounds & places & E & PP & SP & Es).
  assert (R : forall i d d' n, nth_error (mod_defs m) i = Some d -> nth_error (mod_defs m') i = Some d' -> ready m rounds i d n <-> ready m' rounds i d' n).
  { intros i d d' n Hd Hd'. destruct (nth_Forall2 _ _ _ _ _ F _ _ Hd') as (d0 & Hd0 & S0). rewrite Hd in Hd0. injection Hd0 as <-.
    split; intros X j x Hj N.
    - destruct (nth_Forall2 _ _ _ _ _ F _ _ Hj) as (y & Hy & Sy). apply (X j y Hy). rewrite (same_definition_name _ _ Sy) in N.
      apply (same_needs m m' d d' _ Ei S0). exact N.
    - destruct (nth_Forall2 _ _ _ _ _ (Forall2_flip _ _ _ _ _ F) _ _ Hj) as (y & Hy & Sy). apply (X j y Hy). rewrite (same_definition_name _ _ Sy).
      apply (same_needs m m' d d' _ Ei S0). exact N. }
  exists rounds, places. split; [|split; [|split]].
  - intros i d Hd. destruct (nth_Forall2 _ _ _ _ _ (Forall2_flip _ _ _ _ _ F) _ _ Hd) as (d' & Hd' & S').
    destruct (E i d' Hd') as (E1 & E2). split; [apply (R i d d' _ Hd Hd'); exact E1|]. intros n X. apply E2. apply (R i d d' _ Hd Hd'). exact X.
  - rewrite (Forall2_length _ _ _ _ _ F). exact PP.
  - exact SP.
  - clear - F ND P Fo Es. assert (I : incl order (mod_defs m)) by (intros x Hx; apply (Permutation_in _ P); exact Hx). clear P.
    revert places Es. induction Fo as [|o s order sorted S Fo IH]; intros [|p places] Es; cbn [map] in *; try discriminate; [reflexivity|].
    injection Es as E1 E2. f_equal; [|apply IH; [intros x Hx; apply I; right; exact Hx|exact E2]].
    symmetry in E1. destruct (nth_Forall2 _ _ _ _ _ F _ _ E1) as (d & Hd & Sd). rewrite Hd. f_equal.
    apply (NoDup_map_inj _ _ def_name (mod_defs m)); [exact ND|apply I; left; reflexivity|eapply nth_error_In; exact Hd|].
    rewrite <- (same_definition_name _ _ S), <- (same_definition_name _ _ Sd). reflexivity.
Qed.

Lemma config_in_rounds : forall names input b bm m fuel order sorted, config names input b -> In bm (b_modules b) ->
  same_module m (bm_mod bm) -> sorted_definitions fuel (bm_mod bm) = Ok sorted ->
  Permutation order (mod_defs m) -> Forall2 same_definition order sorted -> in_rounds m order.
Proof.
  intros names input b bm m fuel order sorted C Hbm S Hs P F.
  assert (N := config_local_nodup _ _ _ _ C Hbm).
  apply (same_in_rounds m (bm_mod bm) order sorted S); try assumption.
  - change (NoDup (defined_names m)). rewrite <- (same_defined_names _ _ S). exact N.
  - eapply sorted_in_rounds; [|eapply config_types_defined; eassumption|exact N|exact Hs].
    intros d k Hd Hk. destruct (field_member names input b bm d k C Hbm Hd Hk) as (_ & T & _ & X). auto.
Qed.

(** ** There is one such order *)

Lemma rounds_least : forall m rounds rounds', earliest_rounds m rounds -> earliest_rounds m rounds' ->
  forall n i d, nth_error (mod_defs m) i = Some d -> rounds' i = n -> rounds i <= n.
Proof.
  intros m rounds rounds' E E'. induction n as [n IHn] using lt_wf_ind. induction i as [i IHi] using lt_wf_ind.
  intros d Hd En. destruct (E i d Hd) as (_ & L). apply L. intros j d' Hj N. destruct (E' i d Hd) as (R & _). rewrite En in R.
  destruct (R j d' Hj N) as [X|(X & Y)].
  - left. specialize (IHn _ X j d' Hj eq_refl). lia.
  - specialize (IHi j Y d' Hj X). lia.
Qed.

Lemma sorted_unique : forall A (R : A -> A -> Prop) l l', (forall x y, R x y -> ~ R y x) -> (forall x, ~ R x x) ->
  StronglySorted R l -> StronglySorted R l' -> Permutation l l' -> l = l'.
Proof.
  intros A R l l' As Ir H. revert l'. induction H as [|a l S IH F]; intros l' H' P.
  - apply Permutation_nil in P. congruence.
  - destruct H' as [|a' l' S' F']; [symmetry in P; apply Permutation_nil in P; discriminate|].
    rewrite Forall_forall in F, F'.
    assert (a = a').
    { assert (I : In a (a' :: l')) by (apply (Permutation_in _ P); left; reflexivity).
      assert (I' : In a' (a :: l)) by (apply (Permutation_in _ (Permutation_sym P)); left; reflexivity).
      destruct I as [->|I]; [reflexivity|]. destruct I' as [->|I']; [reflexivity|]. exfalso. exact (As _ _ (F _ I') (F' _ I)). }
    subst a'. f_equal. apply IH; [exact S'|]. apply Permutation_cons_inv in P. exact P.
Qed.

Lemma one_order : forall m order order', in_rounds m order -> in_rounds m order' -> order = order'.
Proof.
  intros m order order' (r & p & E & P & S & O) (r' & p' & E' & P' & S' & O').
  assert (Q : forall i, i < length (mod_defs m) -> r i = r' i).
  { intros i L. apply nth_error_Some in L. destruct (nth_error (mod_defs m) i) as [d|] eqn:H; [|congruence].
    apply Nat.le_antisymm; [exact (rounds_least m r r' E E' _ _ _ H eq_refl)|exact (rounds_least m r' r E' E _ _ _ H eq_refl)]. }
  assert (X : p = p').
  { apply (sorted_unique _ (before r)).
    - unfold before. lia.
    - unfold before. lia.
    - exact S.
    - eapply sorted_weaken; [exact S'|]. unfold before. intros x y Hx Hy.
      assert (IN : forall z, In z p' -> z < length (mod_defs m)) by (intros z Hz; apply (Permutation_in _ P') in Hz; apply in_seq in Hz; lia).
      rewrite (Q x (IN x Hx)), (Q y (IN y Hy)). tauto.
    - rewrite P. symmetry. exact P'. }
  subst p'. rewrite <- O' in O. clear - O. revert order' O. induction order as [|x l IH]; intros [|y l'] O; cbn in O; try discriminate; [reflexivity|].
  injection O as -> O. f_equal. apply IH. exact O.
Qed.

Lemma order_kept : forall m order, in_rounds m order ->
  (forall i d j d', nth_error (mod_defs m) i = Some d -> nth_error (mod_defs m) j = Some d' -> needs m d (def_name d') -> j < i) ->
  order = mod_defs m.
Proof.
  intros m order H K. apply (one_order m); [exact H|]. exists (fun _ => 0), (seq 0 (length (mod_defs m))). split; [|split; [|split]].
  - intros i d Hi. split; [|intros; lia]. intros j d' Hj N. right. split; [reflexivity|]. exact (K i d j d' Hi Hj N).
  - reflexivity.
  - eapply sorted_weaken; [apply seq_sorted|]. intros x y _ _ L. right. auto.
  - clear. assert (X : forall a l : list definition, map Some l = map (nth_error (a ++ l)) (seq (length a) (length l))).
    { intros a l. revert a. induction l as [|x l IH]; intros a; [reflexivity|]. cbn [length seq map]. f_equal.
      - rewrite nth_error_app2, Nat.sub_diag by lia. reflexivity.
      - specialize (IH (a ++ [x])). rewrite <- app_assoc in IH. cbn [app] in IH. rewrite IH, app_length. cbn [length]. rewrite Nat.add_1_r. reflexivity. }
    exact (X [] (mod_defs m)).
Qed.

(** The definitions a definition needs come before it. *)
Lemma rounds_dependencies : forall m order, in_rounds m order -> forall i d d', nth_error order i = Some d -> In d' (mod_defs m) ->
  needs m d (def_name d') -> exists j, j < i /\ nth_error order j = Some d'.
Proof.
  intros m order (r & p & E & P & S & O) i d d' Hi Hd' N.
  assert (A : forall k x, nth_error order k = Some x <-> exists q, nth_error p k = Some q /\ nth_error (mod_defs m) q = Some x).
  { intros k x. assert (Z : nth_error (map Some order) k = nth_error (map (nth_error (mod_defs m)) p) k) by (rewrite O; reflexivity).
    rewrite !nth_error_map in Z. destruct (nth_error order k) as [y|] eqn:Y, (nth_error p k) as [q|] eqn:Q; cbn in Z; try discriminate.
    - injection Z as Z. split; [intros X; injection X as <-; exists q; auto|]. intros (q' & E1 & E2). injection E1 as <-. congruence.
    - split; [discriminate|]. intros (q' & E1 & _). discriminate. }
  apply A in Hi. destruct Hi as (q & Hq & Hd). apply In_nth_error in Hd'. destruct Hd' as (q' & Hd').
  destruct (E q d Hd) as (R & _). assert (B := R q' d' Hd' N).
  assert (I : In q' p). { apply (Permutation_in _ (Permutation_sym P)). apply in_seq. assert (q' < length (mod_defs m)) by (apply nth_error_Some; congruence). lia. }
  apply In_nth_error in I. destruct I as (j & Hj). exists j. split; [|apply A; exists q'; auto].
  assert (SS : forall l, StronglySorted (before r) l -> forall a b x y, nth_error l a = Some x -> nth_error l b = Some y -> a <= b -> x = y \/ before r x y).
  { clear. intros l H. induction H as [|z l S IH F]; intros a b x y Ha Hb L; [destruct a; discriminate|].
    destruct a as [|a], b as [|b]; cbn in *; try lia.
    - left. congruence.
    - right. injection Ha as <-. rewrite Forall_forall in F. apply F. eapply nth_error_In; exact Hb.
    - apply (IH a b); try assumption. lia. }
  destruct (Nat.lt_ge_cases j i) as [L|L]; [exact L|]. exfalso. destruct (SS p S i j q q' Hq Hj L) as [->|X]; [lia|]. unfold before in X. lia.
Qed.
