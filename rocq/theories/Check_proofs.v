(** * Proofs about parsing and validation *)
From Coq Require Import QArith Qpower ZifyBool ZifyNat ZifyN.
From Verif Require Import Base PyNum PyStr Ast Size Processor Bundle Lib_proofs
  Spec_Enum Spec_Num Spec_Check Spec_Grammar Num_proofs Enum_proofs.
Open Scope string_scope.

(** ** Substrings *)

Lemma prefix_spec : forall p s, String.prefix p s = true <-> exists b, s = p ++ b.
Proof.
  induction p as [|c p IH]; intros s; simpl.
  - split; [intros _; exists s; reflexivity | destruct s; reflexivity].
  - destruct s as [|d s]; [split; [discriminate | intros (b & H); discriminate]|].
    cbn [String.prefix]. destruct (ascii_dec c d) as [->|Hn].
    + rewrite IH. split; intros (b & H); exists b; [subst; reflexivity | congruence].
    + split; [discriminate | intros (b & H); congruence].
Qed.

Lemma contains_spec : forall p s, contains p s = true <-> occurs p s.
Proof.
  intros p s. unfold occurs. induction s as [|c r IH].
  - cbn [contains]. rewrite orb_false_r, prefix_spec. split.
    + intros (b & H). exists "", b. exact H.
    + intros (a & b & H). destruct a; [exists b; exact H | discriminate].
  - cbn [contains]. rewrite orb_true_iff, prefix_spec, IH. split.
    + intros [(b & H)|(a & b & H)].
      * exists "", b. exact H.
      * exists (String c a), b. rewrite H. reflexivity.
    + intros ([|x a] & b & H).
      * left. exists b. exact H.
      * right. exists a, b. simpl in H. congruence.
Qed.

Lemma occurs_empty : forall p, occurs p "" -> p = "".
Proof. intros p ([|c a] & b & H); [destruct p; [reflexivity|discriminate] | discriminate]. Qed.

Lemma check_comment_ok : forall k c, check_comment k c = Ok tt <-> clean c.
Proof.
  intros k c. unfold check_comment, clean. destruct (String.eqb (cm_text c) "") eqn:E.
  - apply String.eqb_eq in E. rewrite E. split; [|reflexivity]. intros _.
    repeat split; intros H; apply occurs_empty in H; discriminate.
  - rewrite <- !contains_spec.
    destruct (contains "[" (cm_text c)), (contains "]" (cm_text c)),
      (contains "--" (cm_text c)); simpl; split; intros; try discriminate; try reflexivity;
      repeat split; try discriminate; exfalso; tauto.
Qed.

Lemma check_comment_opt_ok : forall k c,
  check_comment_opt k c = Ok tt <-> Forall clean (opt_list c).
Proof.
  intros k [c|]; simpl; [rewrite check_comment_ok|].
  - split; intros H; [auto | inversion H; assumption].
  - split; auto.
Qed.

(** ** Induction on clauses *)

Lemma clause_ind : forall (P : wcomps -> Prop),
  (forall c l, (forall k w cm, In (WI k (VWith w) cm) l -> P w) -> P (WC c l)) ->
  forall w, P w.
Proof.
  intros P H. fix IH 1. intros [c l]. apply H.
  induction l as [|i r IHl]; intros k w cm Hin; [destruct Hin|].
  destruct Hin as [E|Hin].
  - destruct i as [k' v' cm']. destruct v' as [z|f|b|w']; try discriminate E.
    injection E as <- <- <-. apply IH.
  - exact (IHl k w cm Hin).
Qed.

Lemma process_items_eq : forall l,
  (fix go (l : list witem) : result unit :=
     match l with
     | [] => Ok tt
     | i :: r => let* _ := process_witem i in go r
     end) l = for_each process_witem l.
Proof. induction l as [|i r IH]; simpl; [reflexivity|]. rewrite IH. reflexivity. Qed.

Lemma process_wcomps_eq : forall c l,
  process_wcomps (WC c l) =
  (let* _ := check_comment_opt false c in for_each process_witem l).
Proof. intros c l. rewrite <- process_items_eq. reflexivity. Qed.

Lemma clause_comments_eq : forall c l,
  clause_comments (WC c l) = (opt_list c ++ flat_map item_comments l)%list.
Proof. reflexivity. Qed.

Lemma bind_unit_ok : forall (r : result unit) (s : result unit),
  (let* _ := r in s) = Ok tt <-> r = Ok tt /\ s = Ok tt.
Proof.
  intros r s. rewrite bind_ok. split.
  - intros ([] & H1 & H2). auto.
  - intros [H1 H2]. exists tt. auto.
Qed.

Lemma process_wcomps_ok : forall w,
  process_wcomps w = Ok tt <-> Forall clean (clause_comments w).
Proof.
  apply clause_ind. intros c l IH.
  rewrite process_wcomps_eq, clause_comments_eq, bind_unit_ok, check_comment_opt_ok,
    for_each_ok, Forall_app.
  assert (G : Forall (fun x => process_witem x = Ok tt) l
              <-> Forall clean (flat_map item_comments l)); [|rewrite G; tauto].
  induction l as [|[k v cm] r IHl]; simpl; [split; constructor|].
  rewrite Forall_cons_iff, !Forall_app. simpl.
  rewrite IHl by (intros k' w' cm' Hi; apply (IH k' w' cm'); right; exact Hi).
  rewrite bind_unit_ok, check_comment_opt_ok.
  assert (Hv : process_wval v = Ok tt <-> Forall clean (value_comments v)).
  { destruct v as [z|f|b|w]; simpl; try (split; auto; fail).
    apply (IH k w cm). left. reflexivity. }
  rewrite Hv. tauto.
Qed.

(** ** Types *)

Lemma qval_bounds : forall s m e M E,
  (m <= M)%N -> (e <= E)%Z ->
  (qval true M E <= qval s m e)%Q /\ (qval s m e <= qval false M E)%Q.
Proof.
  intros s m e M E Hm He.
  assert (G : (inject_Z (Z.of_N m) * 2 ^ e <= inject_Z (Z.of_N M) * 2 ^ E)%Q).
  { apply Qle_trans with (inject_Z (Z.of_N M) * 2 ^ e)%Q.
    - apply Qmult_le_compat_r; [|apply Qlt_le_weak, pow2_pos].
      rewrite <- Zle_Qle. lia.
    - rewrite <- (scale (Z.of_N M) E e He).
      apply Qmult_le_compat_r; [|apply Qlt_le_weak, pow2_pos].
      rewrite <- Zle_Qle.
      assert (0 < 2 ^ (E - e))%Z by (apply Z.pow_pos_nonneg; lia). nia. }
  assert (P : forall x y, (0 <= inject_Z (Z.of_N x) * 2 ^ y)%Q).
  { intros x y. apply Qmult_le_0_compat; [|apply Qlt_le_weak, pow2_pos].
    change 0%Q with (inject_Z 0). rewrite <- Zle_Qle. lia. }
  assert (G0 := P m e). assert (GM := P M E). clear P.
  unfold qval.
  setoid_replace (- inject_Z (Z.of_N M) * 2 ^ E)%Q with (- (inject_Z (Z.of_N M) * 2 ^ E))%Q by ring.
  set (y := (inject_Z (Z.of_N M) * 2 ^ E)%Q) in *.
  assert (Gy : (- y <= 0)%Q) by (change 0%Q with (- (0))%Q; apply Qopp_le_compat; exact GM).
  destruct s.
  - setoid_replace (- inject_Z (Z.of_N m) * 2 ^ e)%Q with (- (inject_Z (Z.of_N m) * 2 ^ e))%Q by ring.
    set (x := (inject_Z (Z.of_N m) * 2 ^ e)%Q) in *.
    assert (Gx : (- x <= 0)%Q) by (change 0%Q with (- (0))%Q; apply Qopp_le_compat; exact G0).
    split; [apply Qopp_le_compat; exact G | eapply Qle_trans; [exact Gx | exact GM]].
  - split; [eapply Qle_trans; [exact Gy | exact G0] | exact G].
Qed.

Lemma double_le_fin : forall s1 m1 e1 s2 m2 e2,
  (qval s1 m1 e1 <= qval s2 m2 e2)%Q -> double_le (DFin s1 m1 e1) (DFin s2 m2 e2).
Proof. intros s1 m1 e1 s2 m2 e2 H. exact H. Qed.

Lemma valid_double_max' : forall m e,
  (if (m <? 2 ^ 52)%N then (e =? -1074)%Z
   else (m <? 2 ^ 53)%N && (-1074 <=? e)%Z && (e <=? 971)%Z) = true ->
  (m <= 9007199254740991)%N /\ (e <= 971)%Z.
Proof.
  intros m e Hv.
  change (2^52)%N with 4503599627370496%N in Hv. change (2^53)%N with 9007199254740992%N in Hv.
  destruct (m <? 4503599627370496)%N eqn:E; lia.
Qed.

Lemma valid_double_max : forall s m e,
  valid_double (DFin s m e) = true -> (m <= 9007199254740991)%N /\ (e <= 971)%Z.
Proof. intros s m e Hv. exact (valid_double_max' m e Hv). Qed.

Lemma double_min_le : forall d,
  double_le (DFin true 9007199254740991 971) d -> double_le (fval DOUBLE_MIN) d.
Proof. intros d H. exact H. Qed.
Lemma double_max_le : forall d,
  double_le d (DFin false 9007199254740991 971) -> double_le d (fval DOUBLE_MAX).
Proof. intros d H. exact H. Qed.

Lemma valid_double_bounds : forall d,
  valid_double d = true -> finite d ->
  double_le (fval DOUBLE_MIN) d /\ double_le d (fval DOUBLE_MAX).
Proof.
  intros [s m e|s] Hv Hf; [|destruct Hf].
  apply valid_double_max in Hv. destruct Hv as [Hm He].
  split; [apply double_min_le | apply double_max_le]; apply double_le_fin;
    apply qval_bounds; assumption.
Qed.

Lemma capital_not_keyword : forall n,
  is_name_capital n = true ->
  ~ In n ["BOOLEAN"; "INTEGER"; "REAL"; "NULL"; "IA5String"; "NumericString"].
Proof.
  intros n Hn Hin. repeat (destruct Hin as [<-|Hin]; [vm_compute in Hn; discriminate|]).
  destruct Hin.
Qed.

Lemma capital_eqb : forall n k,
  is_name_capital n = true -> In k ["BOOLEAN"; "INTEGER"; "REAL"; "NULL"; "IA5String"; "NumericString"] ->
  String.eqb n k = false.
Proof.
  intros n k Hn Hk. apply String.eqb_neq. intros ->. apply (capital_not_keyword k); assumption.
Qed.

Lemma name_not_posix_keyword : forall n,
  posix_range n = None \/ exists r, posix_range n = Some r.
Proof. intros n. destruct (posix_range n); eauto. Qed.

Lemma finite_between : forall s1 m1 e1 s2 m2 e2 b e,
  double_le (DFin s1 m1 e1) b -> double_le b e -> double_le e (DFin s2 m2 e2) ->
  finite b /\ finite e.
Proof.
  intros s1 m1 e1 s2 m2 e2 [sb mb eb|[]] [se me ee|[]]; simpl; tauto.
Qed.

(** When [asn1_type] succeeds. *)
Lemma asn1_type_ok : forall t,
  type_ok t = true -> ((exists c, asn1_type t = Ok c) <-> range_ok t).
Proof.
  intros t Ht. destruct t as [[[b e]|]|[[b e]|]| | |k len|len t|n].
  - (* REAL with range *)
    cbn [type_ok] in Ht. apply andb_prop in Ht. destruct Ht as [Hb He].
    apply andb_prop in Hb, He. destruct Hb as [Hb _], He as [He _].
    unfold asn1_type. cbn [type_begin type_end type_name range_ok].
    destruct (num_lt (NFloat e) (NFloat b)) eqn:El.
    + simpl. split; [intros (c & H); discriminate|]. intros (_ & _ & Hle).
      apply num_lt_float in Hle. congruence.
    + cbn [bind assert negb]. apply num_lt_float in El.
      change (posix_range "REAL") with (@None (num * num)).
      change (String.eqb "REAL" "INTEGER") with false.
      change (String.eqb "REAL" "REAL") with true. cbn iota.
      assert (G : finite (fval b) /\ finite (fval e) <->
                  num_le (NFloat DOUBLE_MIN) (NFloat b) && num_le (NFloat e) (NFloat DOUBLE_MAX) = true).
      { split.
        - intros [Fb Fe]. apply andb_true_intro.
          split; apply num_le_float; apply valid_double_bounds; assumption.
        - intros H. apply andb_prop in H. destruct H as [H1 H2].
          apply num_le_float in H1. apply num_le_float in H2.
          exact (finite_between _ _ _ _ _ _ _ _ H1 El H2). }
      destruct (num_le (NFloat FLOAT_MIN) (NFloat b) && num_le (NFloat e) (NFloat FLOAT_MAX)) eqn:Ef.
      * split; [|intros _; eexists; reflexivity]. intros _.
        apply andb_prop in Ef. destruct Ef as [F1 F2].
        apply num_le_float in F1. apply num_le_float in F2.
        destruct (finite_between _ _ _ _ _ _ _ _ F1 El F2) as [Fb Fe]. auto.
      * destruct (num_le (NFloat DOUBLE_MIN) (NFloat b) && num_le (NFloat e) (NFloat DOUBLE_MAX)) eqn:Ed.
        -- split; [|intros _; eexists; reflexivity]. intros _. tauto.
        -- split; [intros (c & H); discriminate|]. intros (F1 & F2 & _).
           destruct G as [G _]. specialize (G (conj F1 F2)). discriminate.
  - simpl. split; [auto | intros _; eexists; reflexivity].
  - unfold asn1_type. cbn [type_begin type_end type_name range_ok].
    rewrite num_lt_int. destruct (e <? b)%Z eqn:E.
    + simpl. split; [intros (c & H); discriminate | lia].
    + cbn [bind assert negb]. split; [intros _; lia|]. intros _.
      change (posix_range "INTEGER") with (@None (num * num)).
      change (String.eqb "INTEGER" "INTEGER") with true. cbn iota.
      destruct (num_le (NInt 0) (NInt b)); eexists; reflexivity.
  - simpl. split; [auto | intros _; eexists; reflexivity].
  - simpl. split; [auto | intros _; eexists; reflexivity].
  - simpl. split; [auto | intros _; eexists; reflexivity].
  - simpl. split; [auto | intros _]. destruct k; eexists; vm_compute; reflexivity.
  - split; [simpl; auto | intros _]. unfold asn1_type. cbn [type_begin type_end bind].
    destruct (posix_range (type_name (TArray len t))) eqn:Ep.
    + destruct (startswith _ _); [eexists; reflexivity|].
      destruct (startswith _ _); [eexists; reflexivity|].
      destruct (String.eqb _ "Float"); [eexists; reflexivity|].
      destruct (String.eqb _ "Double"); eexists; reflexivity.
    + destruct (String.eqb _ "INTEGER"); destruct (String.eqb _ "REAL");
        destruct (String.eqb _ "BOOLEAN"); eexists; reflexivity.
  - split; [simpl; auto | intros _]. unfold asn1_type. cbn [type_begin type_end bind].
    destruct (posix_range (type_name (TName n))) eqn:Ep.
    + destruct (startswith _ _); [eexists; reflexivity|].
      destruct (startswith _ _); [eexists; reflexivity|].
      destruct (String.eqb _ "Float"); [eexists; reflexivity|].
      destruct (String.eqb _ "Double"); eexists; reflexivity.
    + destruct (String.eqb _ "INTEGER"); destruct (String.eqb _ "REAL");
        destruct (String.eqb _ "BOOLEAN"); eexists; reflexivity.
Qed.

Lemma process_type_ok : forall t,
  type_ok t = true -> (process_type t = Ok tt <-> ranges_ok t).
Proof.
  unfold ranges_ok. induction t as [r|r| | |k len|len t IH|n]; intros Ht;
  match goal with
  | |- process_type (TArray _ _) = _ <-> _ => idtac
  | |- _ =>
      cbn [process_type bind subtypes];
      rewrite Forall_cons_iff, <- asn1_type_ok by exact Ht; rewrite bind_ok;
      split; [intros (c & H & _); split; [exists c; exact H | constructor]
             | intros [(c & H) _]; exists c; split; [exact H | reflexivity]]
  end.
  cbn [process_type subtypes]. rewrite Forall_cons_iff, <- asn1_type_ok by exact Ht.
  rewrite bind_ok. cbn [type_ok] in Ht. rewrite <- (IH Ht). split.
  - intros ([] & H1 & H2). apply bind_ok in H2. destruct H2 as (c & H2 & _).
    split; [exists c; exact H2 | exact H1].
  - intros [(c & H1) H2]. exists tt. split; [exact H2|]. rewrite H1. reflexivity.
Qed.

Lemma null_check_ok : forall t,
  type_ok t = true -> (null_check t = Ok tt <-> element t <> TNull).
Proof.
  intros t Ht. unfold null_check. rewrite assert_ok, negb_true_iff.
  induction t as [r|r| | |k len|len t IH|n]; simpl in *; try (split; [discriminate|reflexivity]).
  - split; [discriminate | intros H; exfalso; apply H; reflexivity].
  - destruct k; split; try discriminate; reflexivity.
  - apply IH. exact Ht.
  - split; [discriminate|]. intros _. apply capital_eqb; [exact Ht | simpl; tauto].
Qed.

Lemma num_eq_spec : forall a b,
  num_eq a b = true ->
  match nval a, nval b with
  | XFin m1 e1, XFin m2 e2 => (inject_Z m1 * 2 ^ e1 == inject_Z m2 * 2 ^ e2)%Q
  | XInf s, XInf s' => s = s'
  | _, _ => False
  end.
Proof.
  intros a b H. unfold num_eq in H.
  destruct (nval a) as [m1 e1|[]], (nval b) as [m2 e2|[]]; try (simpl in H; discriminate);
    try reflexivity.
  rewrite xcompare_fin in H. apply Qeq_alt. destruct (_ ?= _)%Q; congruence.
Qed.

Lemma num_eq_fin : forall a b m1 e1 m2 e2,
  nval a = XFin m1 e1 -> nval b = XFin m2 e2 ->
  (num_eq a b = true <-> (inject_Z m1 * 2 ^ e1 == inject_Z m2 * 2 ^ e2)%Q).
Proof.
  intros a b m1 e1 m2 e2 Ha Hb. unfold num_eq. rewrite Ha, Hb, xcompare_fin, Qeq_alt.
  destruct (_ ?= _)%Q; split; congruence.
Qed.

(** The POSIX table, numerically. *)
Lemma posix_table : forall n,
  match posix_range n, posix_bounds n with
  | Some (b, e), Some (qb, qe) =>
      (exists m x, nval b = XFin m x /\ inject_Z m * 2 ^ x == qb)%Q
      /\ (exists m x, nval e = XFin m x /\ inject_Z m * 2 ^ x == qe)%Q
  | None, None => True
  | _, _ => False
  end.
Proof.
  intros n. unfold posix_range, posix_bounds, ASN1_POSIX_RANGE, dict_get.
  destruct (String.eqb n "Int8-t") eqn:E1;
    [apply String.eqb_eq in E1; subst n; cbn; split; eexists; eexists; (split; [reflexivity|]);
      reflexivity|].
  destruct (String.eqb n "Int16-t") eqn:E2;
    [apply String.eqb_eq in E2; subst n; cbn; split; eexists; eexists; (split; [reflexivity|]);
      reflexivity|].
  destruct (String.eqb n "Int32-t") eqn:E3;
    [apply String.eqb_eq in E3; subst n; cbn; split; eexists; eexists; (split; [reflexivity|]);
      reflexivity|].
  destruct (String.eqb n "Int64-t") eqn:E4;
    [apply String.eqb_eq in E4; subst n; cbn; split; eexists; eexists; (split; [reflexivity|]);
      reflexivity|].
  destruct (String.eqb n "Uint8-t") eqn:E5;
    [apply String.eqb_eq in E5; subst n; cbn; split; eexists; eexists; (split; [reflexivity|]);
      reflexivity|].
  destruct (String.eqb n "Uint16-t") eqn:E6;
    [apply String.eqb_eq in E6; subst n; cbn; split; eexists; eexists; (split; [reflexivity|]);
      reflexivity|].
  destruct (String.eqb n "Uint32-t") eqn:E7;
    [apply String.eqb_eq in E7; subst n; cbn; split; eexists; eexists; (split; [reflexivity|]);
      reflexivity|].
  destruct (String.eqb n "Uint64-t") eqn:E8;
    [apply String.eqb_eq in E8; subst n; cbn; split; eexists; eexists; (split; [reflexivity|]);
      reflexivity|].
  destruct (String.eqb n "Float") eqn:E9.
  { apply String.eqb_eq in E9; subst n. cbn [String.eqb].
    split; eexists; eexists; (split; [reflexivity|]); symmetry; apply qval_signed. }
  destruct (String.eqb n "Double") eqn:E10.
  { apply String.eqb_eq in E10; subst n. cbn [String.eqb].
    split; eexists; eexists; (split; [reflexivity|]); symmetry; apply qval_signed. }
  exact I.
Qed.

Lemma num_eq_bounds : forall pb pe t m1 x1 m2 x2 qb qe,
  nval pb = XFin m1 x1 -> (inject_Z m1 * 2 ^ x1 == qb)%Q ->
  nval pe = XFin m2 x2 -> (inject_Z m2 * 2 ^ x2 == qe)%Q ->
  (match type_begin t, type_end t with
   | Some b, Some e => assert (num_eq pb b && num_eq pe e) ConsistencyError
   | _, _ => Err ConsistencyError
   end = Ok tt <-> has_bounds t qb qe).
Proof.
  intros pb pe t m1 x1 m2 x2 qb qe Hb Hqb He Hqe.
  destruct t as [[[b e]|]|[[b e]|]| | |k len|len t|n]; cbn [type_begin type_end has_bounds];
    try (split; [discriminate | intros []]; fail).
  - rewrite assert_ok, andb_true_iff.
    destruct (fval b) as [s3 m3 x3|s3] eqn:Eb.
    2:{ split; [|intros []]. intros [H _]. apply num_eq_spec in H. rewrite Hb in H.
        unfold nval in H. rewrite Eb in H. destruct H. }
    destruct (fval e) as [s4 m4 x4|s4] eqn:Ee.
    2:{ split; [|intros []]. intros [_ H]. apply num_eq_spec in H. rewrite He in H.
        unfold nval in H. rewrite Ee in H. destruct H. }
    rewrite (num_eq_fin pb (NFloat b) m1 x1 (signed s3 m3) x3 Hb)
      by (unfold nval; rewrite Eb; reflexivity).
    rewrite (num_eq_fin pe (NFloat e) m2 x2 (signed s4 m4) x4 He)
      by (unfold nval; rewrite Ee; reflexivity).
    rewrite Hqb, Hqe, !qval_signed. split; intros [H1 H2]; split; symmetry; assumption.
  - rewrite assert_ok, andb_true_iff.
    rewrite (num_eq_fin pb (NInt b) m1 x1 b 0 Hb) by reflexivity.
    rewrite (num_eq_fin pe (NInt e) m2 x2 e 0 He) by reflexivity.
    rewrite Hqb, Hqe. change (2 ^ 0)%Q with 1%Q. rewrite !Qmult_1_r.
    split; intros [H1 H2]; split; symmetry; assumption.
Qed.

Lemma check_posix_ok : forall n t, check_posix n t = Ok tt <-> posix_ok n t.
Proof.
  intros n t. unfold check_posix, posix_ok. assert (H := posix_table n).
  destruct (posix_range n) as [[pb pe]|]; destruct (posix_bounds n) as [[qb qe]|];
    try (destruct H; fail).
  - destruct H as ((m1 & x1 & Hb & Hqb) & (m2 & x2 & He & Hqe)).
    exact (num_eq_bounds pb pe t m1 x1 m2 x2 qb qe Hb Hqb He Hqe).
  - split; auto.
Qed.

(** ** Definitions *)

Lemma process_member_ok : forall k,
  member_ok k = true ->
  (process_member k = Ok tt <->
   Forall clean (member_comments k) /\ ranges_ok (m_type k) /\ element (m_type k) <> TNull).
Proof.
  intros k Hk. unfold member_ok in Hk. repeat (apply andb_prop in Hk; destruct Hk as [Hk ?]).
  unfold process_member, member_comments. rewrite !bind_unit_ok, Forall_app.
  rewrite process_type_ok, check_comment_opt_ok, null_check_ok by assumption.
  assert (G : match m_with k with Some w => process_wcomps w | None => Ok tt end = Ok tt
              <-> Forall clean match m_with k with Some w => clause_comments w | None => [] end).
  { destruct (m_with k); [apply process_wcomps_ok | split; auto]. }
  rewrite G. tauto.
Qed.

Lemma Forall_and_iff : forall A (P Q : A -> Prop) l,
  Forall (fun x => P x /\ Q x) l <-> Forall P l /\ Forall Q l.
Proof.
  intros. rewrite !Forall_forall. split.
  - intros H. split; intros x Hx; apply H; exact Hx.
  - intros [H1 H2] x Hx. split; auto.
Qed.

Lemma Forall_flat_map : forall A B (P : B -> Prop) (f : A -> list B) l,
  Forall P (flat_map f l) <-> Forall (fun x => Forall P (f x)) l.
Proof.
  intros A B P f l. induction l as [|x r IH]; simpl.
  - split; constructor.
  - rewrite Forall_app, Forall_cons_iff, IH. reflexivity.
Qed.

Lemma Forall_iff_in : forall A (P Q : A -> Prop) l,
  (forall x, In x l -> (P x <-> Q x)) -> (Forall P l <-> Forall Q l).
Proof.
  intros A P Q l H. rewrite !Forall_forall. split; intros G x Hx; apply (H x Hx); auto.
Qed.

Lemma process_members_ok : forall l,
  forallb member_ok l = true ->
  (for_each process_member l = Ok tt <->
   Forall clean (flat_map member_comments l)
   /\ Forall (fun k => ranges_ok (m_type k) /\ element (m_type k) <> TNull) l).
Proof.
  intros l Hl. rewrite for_each_ok, Forall_flat_map, <- Forall_and_iff.
  apply Forall_iff_in. intros k Hk. rewrite forallb_forall in Hl.
  rewrite process_member_ok by (apply Hl; exact Hk). tauto.
Qed.

Lemma process_enum_items_ok : forall l,
  for_each process_enum_item l = Ok tt
  <-> Forall clean (flat_map (fun e => opt_list (e_comment e)) l).
Proof.
  intros l. rewrite for_each_ok, Forall_flat_map. apply Forall_iff_in.
  intros e _. apply check_comment_opt_ok.
Qed.

Lemma process_definition_ok : forall d,
  definition_ok d = true ->
  ((exists d', process_definition d = Ok d') <->
   Forall clean (definition_comments d) /\ definition_valid d).
Proof.
  intros [n c l|n c l|n c l|n t c] Hd; unfold definition_ok in Hd;
    repeat (apply andb_prop in Hd; destruct Hd as [Hd ?]);
    cbn [process_definition definition_comments definition_valid].
  - rewrite Forall_app. split.
    + intros (d' & H'). inv_ok. rewrite <- (check_comment_opt_ok false).
      match goal with H : for_each _ _ = Ok _ |- _ => apply process_members_ok in H; [|assumption] end.
      tauto.
    + intros ((Hx & Hy) & Hz). apply (check_comment_opt_ok false) in Hx. rewrite Hx. simpl.
      destruct (process_members_ok l) as [_ G]; [assumption|]. rewrite G by tauto. simpl.
      eexists; reflexivity.
  - rewrite Forall_app. split.
    + intros (d' & H'). inv_ok. rewrite <- (check_comment_opt_ok false).
      match goal with H : for_each _ _ = Ok _ |- _ => apply process_members_ok in H; [|assumption] end.
      tauto.
    + intros ((Hx & Hy) & Hz). apply (check_comment_opt_ok false) in Hx. rewrite Hx. simpl.
      destruct (process_members_ok l) as [_ G]; [assumption|]. rewrite G by tauto. simpl.
      eexists; reflexivity.
  - rewrite Forall_app. split.
    + intros (d' & H'). inv_ok. rewrite <- (check_comment_opt_ok false), <- process_enum_items_ok.
      repeat split; try assumption.
      match goal with H : check_enumerated _ = Ok _ |- _ => apply check_enumerated_ok in H;
        destruct H as [[H _]|(H & Hp & Hn)] end; [left; assumption|].
      right. rewrite <- Hn. apply Permutation_map. exact Hp.
    + intros ((Hx & Hy) & Hz). apply (check_comment_opt_ok false) in Hx. rewrite Hx. simpl.
      apply process_enum_items_ok in Hy. rewrite Hy. simpl.
      destruct (check_enumerated_total l) as [(l' & Hl)|Hl]; rewrite Hl; simpl.
      * eexists; reflexivity.
      * exfalso. apply check_enumerated_iff in Hl. destruct Hl as [A B].
        destruct Hz as [Hz|Hz]; [apply A; exact Hz | apply B; exact Hz].
  - rewrite <- process_type_ok, <- null_check_ok, <- check_posix_ok, <- (check_comment_opt_ok false)
      by assumption. split.
    + intros (d' & H'). inv_ok. auto.
    + intros (Hx & Hy & Hz & Hw). rewrite Hy. simpl. rewrite Hx. simpl. rewrite Hz. simpl.
      rewrite Hw. simpl. eexists; reflexivity.
Qed.

(** ** Modules *)

Lemma members_of_eq : forall d, members_of d = def_children d.
Proof. destruct d; reflexivity. Qed.

Lemma process_definition_children : forall d d',
  process_definition d = Ok d' ->
  def_children d' = def_children d /\ def_name d' = def_name d /\ def_comment d' = def_comment d.
Proof.
  intros d d' H. apply process_definition_inv in H.
  destruct d as [n c l|n c l|n c l|n t c]; try (subst; auto).
  destruct H as (l' & -> & _). auto.
Qed.

Lemma parse_module_names : forall m m',
  parse_module m = Ok m' -> defined_names m' = defined_names m.
Proof.
  intros m m' H. apply parse_module_defs in H. destruct H as [H _].
  unfold defined_names. induction H as [|d d' l l' Hd _ IH]; simpl; [reflexivity|].
  apply process_definition_children in Hd. destruct Hd as (_ & -> & _). rewrite IH. reflexivity.
Qed.

Lemma mem_app : forall s a b, mem s (a ++ b) = mem s a || mem s b.
Proof. intros. unfold mem. apply existsb_app. Qed.

(** The type of a member against the names known in a module. *)
Lemma type_name_known : forall t known,
  type_ok t = true -> element t <> TNull ->
  (In (type_name t) (PREDEFINED_LIST ++ known) <->
   (forall n, element t = TName n -> In n known)).
Proof.
  intros t known Ht Hn. rewrite in_app_iff.
  induction t as [r|r| | |k len|len t IH|n]; simpl type_name; simpl element in *;
    try (split; [intros _ n' E; discriminate | intros _; left; simpl; tauto]).
  - split; [intros _ n' E; discriminate | intros _; left; destruct k; simpl; tauto].
  - apply IH; assumption.
  - simpl in Ht. split.
    + intros [H|H] n' E; injection E as <-; [|exact H].
      exfalso. apply (capital_not_keyword n Ht).
      simpl in *. intuition.
    + intros H. right. apply H. reflexivity.
Qed.

Lemma check_used_types_ok : forall m,
  (forall d k, In d (mod_defs m) -> In k (def_children d) ->
     type_ok (m_type k) = true /\ element (m_type k) <> TNull) ->
  (check_used_types_defined m = Ok tt <-> types_defined m).
Proof.
  intros m Hk. unfold check_used_types_defined, types_defined.
  rewrite for_each_ok_in. split.
  - intros H d k n Hd Hin He. rewrite members_of_eq in Hin.
    specialize (H d Hd). rewrite for_each_ok_in in H. specialize (H k Hin).
    apply assert_ok, mem_In in H. unfold defined_types in H.
    destruct (Hk d k Hd Hin) as [H1 H2].
    destruct (type_name_known (m_type k)
      (flatten (map imp_names (mod_imports m)) ++ map def_name (mod_defs m)) H1 H2) as [G _].
    specialize (G H n He). rewrite in_app_iff in G. exact G.
  - intros H d Hd. apply for_each_ok_in. intros k Hin. apply assert_ok, mem_In.
    unfold defined_types. destruct (Hk d k Hd Hin) as [H1 H2].
    destruct (type_name_known (m_type k)
      (flatten (map imp_names (mod_imports m)) ++ map def_name (mod_defs m)) H1 H2) as [_ G].
    apply G. intros n He. apply in_app_iff.
    apply (H d k n Hd); [rewrite members_of_eq; exact Hin | exact He].
Qed.

Lemma grammatical_defs : forall m d,
  grammatical m = true -> In d (mod_defs m) -> definition_ok d = true.
Proof.
  intros m d Hg Hd. unfold grammatical in Hg.
  repeat (apply andb_prop in Hg; destruct Hg as [Hg ?]).
  match goal with H : forallb definition_ok _ = true |- _ => rewrite forallb_forall in H; apply H end.
  exact Hd.
Qed.

Lemma grammatical_members : forall m d k,
  grammatical m = true -> In d (mod_defs m) -> In k (def_children d) -> member_ok k = true.
Proof.
  intros m d k Hg Hd Hk. apply (grammatical_defs m d Hg) in Hd.
  destruct d as [n c l|n c l|n c l|n t c]; simpl in Hk; try (destruct Hk; fail);
    unfold definition_ok in Hd; repeat (apply andb_prop in Hd; destruct Hd as [Hd ?]);
    match goal with H : forallb member_ok _ = true |- _ => rewrite forallb_forall in H; apply H end;
    exact Hk.
Qed.

Lemma member_ok_type : forall k, member_ok k = true -> type_ok (m_type k) = true.
Proof.
  intros k H. unfold member_ok in H. repeat (apply andb_prop in H; destruct H as [H ?]). assumption.
Qed.

Lemma definition_valid_members : forall d k,
  definition_valid d -> In k (def_children d) ->
  ranges_ok (m_type k) /\ element (m_type k) <> TNull.
Proof.
  intros [n c l|n c l|n c l|n t c] k Hd Hk; simpl in *; try (destruct Hk; fail);
    rewrite Forall_forall in Hd; apply Hd; exact Hk.
Qed.

Lemma map_result_exists : forall A B (f : A -> result B) l,
  (exists l', map_result f l = Ok l') <-> Forall (fun x => exists y, f x = Ok y) l.
Proof.
  intros A B f l. split.
  - intros (l' & H). apply map_result_ok in H. induction H; constructor; eauto.
  - intros H. induction H as [|x l (y & Hy) _ (l' & IH)]; [exists []; reflexivity|].
    exists (y :: l'). simpl. rewrite Hy. simpl. rewrite IH. reflexivity.
Qed.

Theorem module_accepted_iff : forall m,
  grammatical m = true -> ((exists m', parse_module m = Ok m') <-> module_valid m).
Proof.
  intros m Hg.
  assert (Himp : for_each process_import (mod_imports m) = Ok tt
            <-> Forall clean (flat_map (fun i => opt_list (imp_comment i)) (mod_imports m))).
  { rewrite for_each_ok, Forall_flat_map. apply Forall_iff_in. intros i _.
    apply check_comment_opt_ok. }
  assert (Hdefs : (exists ds, map_result process_definition (mod_defs m) = Ok ds)
            <-> Forall clean (flat_map definition_comments (mod_defs m))
                /\ Forall definition_valid (mod_defs m)).
  { rewrite map_result_exists, Forall_flat_map, <- Forall_and_iff. apply Forall_iff_in.
    intros d Hd. apply process_definition_ok. apply (grammatical_defs m); assumption. }
  assert (Hty : forall ds, map_result process_definition (mod_defs m) = Ok ds ->
     Forall definition_valid (mod_defs m) ->
     let m' := mkmodule (mod_name m) (mod_comment m) (mod_imports m) (mod_comment_import m) ds in
     (check_used_types_defined m' = Ok tt <-> types_defined m)).
  { intros ds Hds Hv m'. apply map_result_ok in Hds.
    assert (Hback : forall d' k, In d' ds -> In k (def_children d') ->
              exists d, In d (mod_defs m) /\ In k (def_children d)).
    { intros d' k Hd' Hk. destruct (Forall2_in_r _ _ _ _ _ _ Hds Hd') as (d & Hd & Hp).
      exists d. split; [exact Hd|]. apply process_definition_children in Hp.
      destruct Hp as (<- & _). exact Hk. }
    assert (Hforth : forall d k, In d (mod_defs m) -> In k (def_children d) ->
              exists d', In d' ds /\ In k (def_children d')).
    { intros d k Hd Hk. destruct (Forall2_in_l _ _ _ _ _ _ Hds Hd) as (d' & Hd' & Hp).
      exists d'. split; [exact Hd'|]. apply process_definition_children in Hp.
      destruct Hp as (-> & _). exact Hk. }
    assert (Hnames : defined_names m' = defined_names m).
    { unfold defined_names, m'. simpl. clear - Hds.
      induction Hds as [|d d' l l' Hd _ IH]; simpl; [reflexivity|].
      apply process_definition_children in Hd. destruct Hd as (_ & -> & _). rewrite IH. reflexivity. }
    rewrite check_used_types_ok.
    - unfold types_defined. rewrite Hnames. change (imported_names m') with (imported_names m).
      simpl. split.
      + intros H d k n Hd Hk He. rewrite members_of_eq in Hk.
        destruct (Hforth d k Hd Hk) as (d' & Hd' & Hk').
        apply (H d' k n Hd'); [rewrite members_of_eq; exact Hk' | exact He].
      + intros H d' k n Hd' Hk He. rewrite members_of_eq in Hk.
        destruct (Hback d' k Hd' Hk) as (d & Hd & Hk').
        apply (H d k n Hd); [rewrite members_of_eq; exact Hk' | exact He].
    - intros d' k Hd' Hk. destruct (Hback d' k Hd' Hk) as (d & Hd & Hk').
      split.
      + apply member_ok_type. apply (grammatical_members m d k); assumption.
      + rewrite Forall_forall in Hv. apply (definition_valid_members d k); auto. }
  unfold parse_module, module_valid, module_comments. rewrite !Forall_app. split.
  - intros (m' & H). inv_ok.
    match goal with H : for_each process_import _ = Ok _ |- _ => apply Himp in H; rename H into Hi end.
    match goal with H : map_result _ _ = Ok ?x |- _ => rename H into Hd; rename x into ds end.
    destruct Hdefs as [Hdefs _]. destruct Hdefs as [Hc Hv]; [exists ds; exact Hd|].
    match goal with H : check_used_types_defined _ = Ok _ |- _ => apply (Hty ds Hd Hv) in H end.
    rewrite <- !(check_comment_opt_ok false). tauto.
  - intros ((H1 & H2 & H3 & H4) & H5 & H6).
    apply (check_comment_opt_ok false) in H1. apply (check_comment_opt_ok false) in H3.
    apply Himp in H2. destruct Hdefs as [_ Hdefs]. destruct Hdefs as (ds & Hds); [auto|].
    rewrite H1. simpl. rewrite H2. simpl. rewrite H3. simpl. rewrite Hds. simpl.
    destruct (Hty ds Hds H5) as [_ G]. rewrite (G H6). simpl. eexists; reflexivity.
Qed.
