(** * What is spelt is grammatical *)
From Verif Require Import Base PyNum PyStr PyFloat Ast Grammar Spec_Grammar Spec_Syntax Str_proofs
  Check_proofs Token_proofs Syntax2_proofs Syntax3_proofs Float_proofs.
Open Scope string_scope.

Lemma float_here_ok : forall f s r, float_here f s r -> float_ok f = true.
Proof.
  intros f s r (neg & sg & ds & fs & n & point & expo & x & S & D & P & X & O & E & N & ->).
  apply decimal_iff in D as (_ & D & ->). assert (Z := digits_value_nonneg _ 0 D ltac:(lia)).
  apply py_float_ok, Z.
Qed.
Lemma type_at_ok : forall t s r, type_at t s r -> type_ok t = true.
Proof.
  induction t as [[[b e]|]|[[]|]| | |[] n|n e IH|n]; intros s r H; cbn [type_at type_ok] in *; try reflexivity.
  - destruct H as (m1 & _ & m2 & _ & m3 & B & m4 & _ & m5 & E & _).
    rewrite (float_here_ok _ _ _ B), (float_here_ok _ _ _ E). reflexivity.
  - destruct H as (m1 & _ & m2 & _ & m3 & _ & m4 & _ & H). eapply IH, H.
  - destruct H as (m1 & _ & H & _). exact H.
Qed.
Lemma comment_at_ok : forall c s r, comment_at c s r -> comment_ok c = true.
Proof.
  intros [t u le] s r (s1 & s2 & s3 & _ & _ & _ & _ & U & _ & T). unfold comment_ok. cbn [cm_text cm_unit] in *.
  apply andb_true_iff. split.
  - destruct (String.eqb t "") eqn:E; [apply String.eqb_eq in E as ->; reflexivity|]. apply T.
  - destruct (String.eqb u "") eqn:E; [apply String.eqb_eq in E as ->; reflexivity|].
    destruct U as (m & (_ & U & _) & _). exact U.
Qed.
Lemma comment_opt_at_ok : forall c s r, comment_opt_at c s r -> comment_opt_ok c = true.
Proof. intros [c|] s r H; [eapply comment_at_ok, H|reflexivity]. Qed.
Lemma lower_case_ok : forall n s r, lower_case n s r -> is_name_lower n = true.
Proof. intros n s r (m & _ & H & _). exact H. Qed.
Lemma capital_ok : forall n s r, capital n s r -> is_name_capital n = true.
Proof. intros n s r (m & _ & H & _). exact H. Qed.

Lemma items_each : forall A (item : A -> step) cm l s r, items item cm l s r ->
  l <> [] /\ forall x, In x l -> (exists s r, item x s r) /\ exists s r, comment_opt_at (cm x) s r.
Proof.
  intros A item cm. induction l as [|x l IH]; intros s r H; [destruct H|]. split; [discriminate|].
  cbn [items] in H. destruct l as [|y l].
  - destruct H as (m & I & C). intros z [<-|[]]. split; eexists; eexists; eassumption.
  - destruct H as (m & I & m2 & _ & m3 & C & H). apply IH in H as [_ H].
    intros z [<-|Z]; [split; eexists; eexists; eassumption|]. apply H, Z.
Qed.

Lemma clause_at_ok : forall w s r, clause_at w s r -> wcomps_ok w = true.
Proof.
  induction w as [c l IH] using clause_ind. intros s r H. rewrite clause_unfold in H.
  destruct H as (m1 & _ & m2 & C & m3 & I & _). apply comment_opt_at_ok in C.
  apply items_each in I as [N I]. cbn [wcomps_ok]. rewrite C. destruct l as [|x l]; [congruence|]. clear N.
  cbn [is_nil negb andb].
  assert (A : forall y, In y (x :: l) -> witem_ok y = true).
  { intros [k v cm] Y. destruct (I _ Y) as [(s1 & r1 & P) (s2 & r2 & Q)]. cbn [wi_comment] in Q.
    rewrite component_unfold in P. destruct P as (q & K & V). cbn [witem_ok].
    rewrite (lower_case_ok _ _ _ K), (comment_opt_at_ok _ _ _ Q). rewrite andb_true_r. simpl andb.
    destruct v as [z|f|b|w]; cbn [wval_ok]; try reflexivity.
    - cbn [value_at] in V. destruct V as (q1 & _ & q2 & (q3 & _ & V) & _).
      rewrite (float_here_ok _ _ _ V). reflexivity.
    - cbn [value_at] in V. eapply IH; [exact Y|exact V]. }
  rewrite (A x (or_introl eq_refl)). cbn [andb].
  assert (B : forall y, In y l -> witem_ok y = true) by (intros y Y; apply A; right; exact Y).
  clear - B. induction l as [|y l IHl]; [reflexivity|].
  rewrite (B y (or_introl eq_refl)). apply IHl. intros z Z. apply B. right. exact Z.
Qed.

Lemma members_at_ok : forall l s r, members_at l s r -> l <> [] /\ forallb member_ok l = true.
Proof.
  induction l as [|m l IH]; intros s r H; [destruct H|]. split; [discriminate|].
  cbn [members_at] in H. destruct H as (m1 & (m0 & K & T) & H).
  cbn [forallb]. unfold member_ok. rewrite (lower_case_ok _ _ _ K), (type_at_ok _ _ _ T).
  destruct m as [k t c [w|]]; cbn [m_with m_comment] in *; destruct l as [|y l].
  - destruct H as (q & C & W). rewrite (comment_opt_at_ok _ _ _ C), (clause_at_ok _ _ _ W). reflexivity.
  - destruct H as (q & C & q2 & W & q3 & _ & H).
    rewrite (comment_opt_at_ok _ _ _ C), (clause_at_ok _ _ _ W). apply IH in H as [_ H]. exact H.
  - rewrite (comment_opt_at_ok _ _ _ H). reflexivity.
  - destruct H as (q & _ & q2 & C & H). rewrite (comment_opt_at_ok _ _ _ C). apply IH in H as [_ H]. exact H.
Qed.
Lemma is_nil_false : forall A (l : list A), l <> [] -> is_nil l = false.
Proof. intros A [|x l] H; [congruence|reflexivity]. Qed.

Lemma definition_at_ok : forall d s r, definition_at d s r -> definition_ok d = true.
Proof.
  intros d s r (m & C & H). apply capital_ok in C.
  destruct d as [n c l|n c l|n c l|n t c]; cbn [def_name definition_ok] in *; rewrite C.
  - destruct H as (m1 & _ & m2 & K & m3 & L & _). rewrite (comment_opt_at_ok _ _ _ K).
    apply members_at_ok in L as [N ->]. rewrite (is_nil_false _ _ N). reflexivity.
  - destruct H as (m1 & _ & m2 & K & m3 & L & _). rewrite (comment_opt_at_ok _ _ _ K).
    apply members_at_ok in L as [N ->]. rewrite (is_nil_false _ _ N). reflexivity.
  - destruct H as (m1 & _ & m2 & K & m3 & L & _). rewrite (comment_opt_at_ok _ _ _ K).
    apply items_each in L as [N L]. rewrite (is_nil_false _ _ N). cbn [negb andb].
    apply forallb_forall. intros e E. destruct (L e E) as [(s1 & r1 & (q & P & _)) (s2 & r2 & Q)].
    unfold enum_item_ok. rewrite (lower_case_ok _ _ _ P), (comment_opt_at_ok _ _ _ Q). reflexivity.
  - destruct H as (m1 & _ & m2 & T & K). rewrite (type_at_ok _ _ _ T), (comment_opt_at_ok _ _ _ K). reflexivity.
Qed.
Lemma all_at_each : forall A (item : A -> step) l s r, all_at item l s r -> forall x, In x l -> exists s r, item x s r.
Proof.
  intros A item. induction l as [|x l IH]; intros s r H y Y; [destruct Y|]. destruct H as (m & H & R).
  destruct Y as [<-|Y]; [eauto|]. eapply IH; eassumption.
Qed.
Lemma names_at_ok : forall l s r, names_at l s r -> l <> [] /\ forallb is_name_capital l = true.
Proof.
  induction l as [|n l IH]; intros s r H; [destruct H|]. split; [discriminate|]. destruct H as (m & C & H).
  cbn [forallb]. rewrite (capital_ok _ _ _ C). destruct l as [|n' l]; [reflexivity|].
  destruct H as (m' & _ & H). apply IH in H as [_ H]. exact H.
Qed.
Lemma spells_grammatical : forall s m, spells s m -> grammatical m = true.
Proof.
  intros s [n c l ci ds] (e & H & _). unfold module_at, imports_at in H.
  cbn [mod_name mod_comment mod_imports mod_comment_import mod_defs] in H.
  destruct H as (m1 & _ & m2 & H2 & m3 & _ & m4 & H4 & m5 & H5 & m6 & (ND & H6) & _).
  unfold grammatical. cbn [mod_name mod_comment mod_imports mod_comment_import mod_defs].
  rewrite (lower_case_ok _ _ _ H2), (comment_opt_at_ok _ _ _ H4), (is_nil_false _ _ ND).
  assert (D : forallb definition_ok ds = true).
  { apply forallb_forall. intros d I. destruct (all_at_each _ _ _ _ _ H6 d I) as (s' & r' & Q).
    eapply definition_at_ok, Q. }
  rewrite D. destruct l as [|i l].
  - destruct H5 as [-> _]. reflexivity.
  - destruct H5 as (q1 & _ & q2 & I & q3 & _ & C). rewrite (comment_opt_at_ok _ _ _ C).
    assert (A : forallb import_ok (i :: l) = true); [|rewrite A; reflexivity].
    apply forallb_forall. intros j J. destruct (all_at_each _ _ _ _ _ I j J) as (s' & r' & (p1 & N & p2 & _ & p3 & L & K)).
    unfold import_ok. apply names_at_ok in N as [N1 N2].
    rewrite (is_nil_false _ _ N1), N2, (lower_case_ok _ _ _ L), (comment_opt_at_ok _ _ _ K). reflexivity.
Qed.
Lemma read_grammatical : forall s m, read_module s = Some m -> grammatical m = true.
Proof. intros s m H. apply read_module_iff in H. eapply spells_grammatical, H. Qed.
