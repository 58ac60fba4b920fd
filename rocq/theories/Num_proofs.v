(** * Comparison of numbers *)
From Verif Require Import Base PyNum Spec_Num.
From Coq Require Import QArith Qpower ZifyBool ZifyNat ZifyN.
Open Scope Q_scope.

Lemma two_pos : 0 < 2. Proof. reflexivity. Qed.
Lemma two_nz : ~ 2 == 0. Proof. intros H. discriminate H. Qed.

Lemma pow2_pos : forall e, 0 < 2 ^ e.
Proof. intros e. apply Qpower_0_lt. reflexivity. Qed.

Lemma pow2_Z : forall n, (0 <= n)%Z -> inject_Z (2 ^ n) == 2 ^ n.
Proof. intros n Hn. rewrite (Zpower_Qpower 2 n Hn). reflexivity. Qed.

Lemma scale : forall m e e', (e' <= e)%Z ->
  inject_Z (m * 2 ^ (e - e')) * 2 ^ e' == inject_Z m * 2 ^ e.
Proof.
  intros m e e' H. rewrite inject_Z_mult, pow2_Z by lia.
  rewrite <- Qmult_assoc, <- Qpower_plus by apply two_nz.
  replace (e - e' + e')%Z with e by lia. reflexivity.
Qed.

Lemma xcompare_fin : forall m1 e1 m2 e2,
  xcompare (XFin m1 e1) (XFin m2 e2) = (inject_Z m1 * 2 ^ e1 ?= inject_Z m2 * 2 ^ e2).
Proof.
  intros m1 e1 m2 e2. cbn [xcompare].
  set (e := Z.min e1 e2).
  assert (H1 := scale m1 e1 e ltac:(lia)). assert (H2 := scale m2 e2 e ltac:(lia)).
  set (a := (m1 * 2 ^ (e1 - e))%Z) in *. set (b := (m2 * 2 ^ (e2 - e))%Z) in *.
  assert (Hp := pow2_pos e).
  destruct (Z.compare_spec a b) as [E|L|G]; symmetry.
  - apply Qeq_alt. rewrite <- H1, <- H2, E. reflexivity.
  - apply Qlt_alt. rewrite <- H1, <- H2. apply Qmult_lt_r; [exact Hp|].
    rewrite <- Zlt_Qlt. exact L.
  - apply Qgt_alt. rewrite <- H1, <- H2. apply Qmult_lt_r; [exact Hp|].
    rewrite <- Zlt_Qlt. exact G.
Qed.

Lemma qval_signed : forall s m e, qval s m e == inject_Z (signed s m) * 2 ^ e.
Proof.
  intros [] m e; unfold qval, signed; [rewrite inject_Z_opp|]; reflexivity.
Qed.

Lemma num_lt_float : forall a b,
  num_lt (NFloat a) (NFloat b) = false <-> double_le (fval b) (fval a).
Proof.
  intros [va ra] [vb rb]. unfold num_lt, nval. cbn [fval].
  destruct va as [s1 m1 e1|[]], vb as [s2 m2 e2|[]]; simpl dval; unfold double_le;
    try (simpl; intuition discriminate; fail).
  rewrite xcompare_fin, !qval_signed.
  rewrite Qle_alt. rewrite <- Qcompare_antisym.
  destruct (_ ?= _); simpl; split; intros; try discriminate; congruence.
Qed.

Lemma num_le_float : forall a b,
  num_le (NFloat a) (NFloat b) = true <-> double_le (fval a) (fval b).
Proof.
  intros [va ra] [vb rb]. unfold num_le, nval. cbn [fval].
  destruct va as [s1 m1 e1|[]], vb as [s2 m2 e2|[]]; simpl dval; unfold double_le;
    try (simpl; intuition discriminate; fail).
  rewrite xcompare_fin, !qval_signed.
  rewrite Qle_alt. destruct (_ ?= _); split; intros; congruence.
Qed.

Lemma xcompare_int : forall a b, xcompare (XFin a 0) (XFin b 0) = (a ?= b)%Z.
Proof. intros. cbn. rewrite !Z.mul_1_r. reflexivity. Qed.

Lemma num_lt_int : forall a b, num_lt (NInt a) (NInt b) = (a <? b)%Z.
Proof.
  intros. unfold num_lt, nval. rewrite xcompare_int. unfold Z.ltb. reflexivity.
Qed.
Lemma num_le_int : forall a b, num_le (NInt a) (NInt b) = (a <=? b)%Z.
Proof.
  intros. unfold num_le, nval. rewrite xcompare_int. unfold Z.leb.
  destruct (a ?= b)%Z; reflexivity.
Qed.
Lemma num_eq_int : forall a b, num_eq (NInt a) (NInt b) = (a =? b)%Z.
Proof.
  intros. unfold num_eq, nval. rewrite xcompare_int.
  destruct (Z.compare_spec a b); subst; [rewrite Z.eqb_refl; reflexivity| |];
    symmetry; apply Z.eqb_neq; lia.
Qed.
