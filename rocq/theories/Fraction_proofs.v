(** * Proofs that floats are read as the nearest doubles *)
From Coq Require Import ZifyBool ZifyN QArith Qabs Qpower Lqa.
From Verif Require Import Base PyNum PyStr PyFloat Spec_Num Spec_Ieee Num_proofs Float_proofs Nearest_proofs Ieee_proofs.
Open Scope Z_scope.

Lemma round_div_nearest : forall n d k, 0 < d ->
  Z.abs (round_div n d * d - n) <= Z.abs (k * d - n)
  /\ (Z.abs (round_div n d * d - n) = Z.abs (k * d - n) -> k = round_div n d \/ Z.even (round_div n d) = true).
Proof.
  intros n d k D. unfold round_div. assert (E := Z.div_mod n d ltac:(lia)). assert (B := Z.mod_pos_bound n d D).
  set (q := n / d) in *. set (r := n mod d) in *. clearbody q r.
  assert (K : k = q \/ k = q + 1 \/ k <= q - 1 \/ q + 2 <= k) by lia.
  assert (L1 : k <= q - 1 -> k * d <= q * d - d) by nia.
  assert (L2 : q + 2 <= k -> q * d + 2 * d <= k * d) by nia.
  assert (X : (q + 1) * d = q * d + d) by ring.
  rewrite (Z.mul_comm d q) in E.
  assert (Ev : Z.even (q + 1) = negb (Z.even q)) by (rewrite Z.even_add; destruct (Z.even q); reflexivity).
  destruct (2 * r <? d) eqn:A1; [|destruct (d <? 2 * r) eqn:A2; [|destruct (Z.even q) eqn:A3]].
  - destruct K as [-> | [-> | [K|K]]]; [split; [lia|auto]|..]; (split; [|intros G; exfalso]); rewrite ?X in *; lia.
  - rewrite X. destruct K as [-> | [-> | [K|K]]]; [| split; [lia|auto] |..]; (split; [|intros G; exfalso]); rewrite ?X in *; lia.
  - destruct K as [-> | [-> | [K|K]]]; [split; [lia|auto]|..]; (split; [|auto]); rewrite ?X in *; lia.
  - rewrite X. destruct K as [-> | [-> | [K|K]]]; [| split; [lia|auto] |..]; (split; [|intros _; right; rewrite Ev; reflexivity]); rewrite ?X in *; lia.
Qed.

Section Fraction.
Variables (n d : Z).
Hypothesis Hn : 0 < n.
Hypothesis Hd : 0 < d.
Let q := Z.max (top n d - 52) (-1074).
Let r := mantissa n d q.

Open Scope Q_scope.
Definition frac (n d : Z) : Q := inject_Z n / inject_Z d.

Lemma inject_pos : forall z, (0 < z)%Z -> 0 < inject_Z z.
Proof. intros z H. change 0 with (inject_Z 0). rewrite <- Zlt_Qlt. exact H. Qed.

Lemma frac_scaled : forall x, frac n d == frac (fst (scaled n d x)) (snd (scaled n d x)) * 2 ^ x.
Proof.
  intros x. rewrite scaled_up. cbn [fst snd]. unfold frac. rewrite !inject_Z_mult.
  assert (P1 := inject_pos _ Hd). assert (P2 := inject_pos _ (pow2_up_pos x)). assert (P3 := inject_pos _ (pow2_up_pos (- x))).
  assert (P4 := pow2_pos x).
  assert (E : inject_Z (2 ^ up (- x)) * 2 ^ x == inject_Z (2 ^ up x)).
  { unfold up. destruct (Z.leb_spec 0 x) as [L|L].
    - rewrite Z.max_l, Z.max_r by lia. change (inject_Z (2 ^ 0)) with 1.
      assert (G := rescale 1 x 0 L). rewrite Z.sub_0_r, Z.mul_1_l in G. change (2 ^ 0) with 1 in G. change (inject_Z 1) with 1 in G.
      etransitivity; [exact G|ring].
    - rewrite Z.max_r, Z.max_l by lia. assert (G := rescale 1 0 x ltac:(lia)).
      replace (1 * 2 ^ (0 - x))%Z with (2 ^ (- x))%Z in G by (rewrite Z.mul_1_l; f_equal; lia).
      change (2 ^ 0) with 1 in G. change (inject_Z 1) with 1 in G. change (inject_Z (2 ^ 0)) with 1. rewrite <- G. ring. }
  rewrite <- E. field. repeat split; lra.
Qed.

Lemma dist_frac : forall k, Qabs (inject_Z k * 2 ^ q - frac n d)
  == inject_Z (Z.abs (k * snd (scaled n d q) - fst (scaled n d q))) * (2 ^ q / inject_Z (snd (scaled n d q))).
Proof.
  intros k. rewrite (frac_scaled q). set (n' := fst (scaled n d q)). assert (P := inject_pos _ (scaled_den n d q Hd)).
  set (d' := snd (scaled n d q)) in *. assert (P2 := pow2_pos q). unfold frac.
  assert (E : inject_Z k * 2 ^ q - inject_Z n' / inject_Z d' * 2 ^ q == inject_Z (k * d' - n') * (2 ^ q / inject_Z d')).
  { unfold Z.sub. rewrite inject_Z_plus, inject_Z_opp, inject_Z_mult. field. lra. }
  rewrite E, Qabs_Qmult. assert (Pq : 0 < 2 ^ q / inject_Z d').
  { unfold Qdiv. apply Qmult_lt_0_compat; [exact P2|]. apply Qinv_lt_0_compat, P. }
  rewrite (Qabs_pos (2 ^ q / inject_Z d')) by lra. reflexivity.
Qed.

Lemma fraction_nearest : forall t E, (Z.abs t < 2 ^ 53)%Z -> (-1074 <= E)%Z ->
  Qabs (inject_Z r * 2 ^ q - frac n d) <= Qabs (inject_Z t * 2 ^ E - frac n d)
  /\ (Qabs (inject_Z r * 2 ^ q - frac n d) == Qabs (inject_Z t * 2 ^ E - frac n d) ->
      inject_Z r * 2 ^ q == inject_Z t * 2 ^ E \/ Z.even r = true).
Proof.
  intros t E Ht HE.
  assert (Pc : 0 < 2 ^ q / inject_Z (snd (scaled n d q))).
  { unfold Qdiv. apply Qmult_lt_0_compat; [apply pow2_pos|]. apply Qinv_lt_0_compat, inject_pos, scaled_den, Hd. }
  assert (N : forall k, Qabs (inject_Z r * 2 ^ q - frac n d) <= Qabs (inject_Z k * 2 ^ q - frac n d)
      /\ (Qabs (inject_Z r * 2 ^ q - frac n d) == Qabs (inject_Z k * 2 ^ q - frac n d) -> k = r \/ Z.even r = true)).
  { intros k. rewrite !dist_frac. destruct (round_div_nearest (fst (scaled n d q)) _ k (scaled_den n d q Hd)) as (A & B).
    fold (mantissa n d q) in A, B. fold r in A, B. split.
    - apply Qmult_le_compat_r; [|lra]. rewrite <- Zle_Qle. exact A.
    - intros G. apply Qmult_inj_r in G; [|lra]. apply B. apply inject_Z_injective. exact G. }
  destruct (Z.leb_spec q E) as [LE|LE].
  - assert (X := rescale t E q LE). rewrite X. destruct (N (t * 2 ^ (E - q))%Z) as (A & B). split; [exact A|].
    intros G. destruct (B G) as [<-|G']; [left; reflexivity|right; exact G'].
  - (* numbers below the binade of the fraction *)
    assert (Q : (q + 52 = top n d)%Z) by (unfold q in *; lia).
    assert (B1 : inject_Z (2 ^ 52) * 2 ^ q <= frac n d).
    { rewrite (frac_scaled q). apply Qmult_le_compat_r; [|apply Qlt_le_weak, pow2_pos].
      unfold frac. apply Qle_shift_div_l; [apply inject_pos, scaled_den, Hd|]. rewrite <- inject_Z_mult, <- Zle_Qle, Z.mul_comm.
      apply scaled_pow; [lia|exact Hd|]. rewrite Q. apply top_spec; assumption. }
    assert (B2 : inject_Z t * 2 ^ E < inject_Z (2 ^ 52) * 2 ^ q).
    { rewrite (rescale _ q E) by lia. apply Qmult_lt_r; [apply pow2_pos|]. rewrite <- Zlt_Qlt, <- Z.pow_add_r by lia.
      assert (2 ^ 53 <= 2 ^ (52 + (q - E)))%Z by (apply Z.pow_le_mono_r; lia). lia. }
    destruct (N (2 ^ 52)%Z) as (A & _).
    rewrite (Qabs_neg (inject_Z (2 ^ 52) * 2 ^ q - frac n d)) in A by lra.
    rewrite (Qabs_neg (inject_Z t * 2 ^ E - frac n d)) by lra. split; [lra|]. intros G'. exfalso. lra.
Qed.

Lemma fraction_high : (frac n d < inject_Z (2 ^ 1024 - 2 ^ 970)) <-> (n < d * (2 ^ 1024 - 2 ^ 970))%Z.
Proof.
  assert (P := inject_pos _ Hd). split; intros H.
  - rewrite Zlt_Qlt, inject_Z_mult, Qmult_comm. unfold frac in H.
    apply (Qmult_lt_r _ _ (inject_Z d) P) in H. setoid_replace (inject_Z n / inject_Z d * inject_Z d) with (inject_Z n) in H by (field; lra).
    exact H.
  - unfold frac. apply Qlt_shift_div_r; [exact P|]. rewrite <- inject_Z_mult, <- Zlt_Qlt, Z.mul_comm. exact H.
Qed.
End Fraction.

(** The sign of a number does not matter. *)
Lemma nearest_mirror : forall (neg : bool) (x : Q) mm ee,
  (forall t E, (Z.abs t < 2 ^ 53)%Z -> (-1074 <= E)%Z ->
    (Qabs (inject_Z (Z.of_N mm) * 2 ^ ee - x) <= Qabs (inject_Z t * 2 ^ E - x))%Q
    /\ ((Qabs (inject_Z (Z.of_N mm) * 2 ^ ee - x) == Qabs (inject_Z t * 2 ^ E - x))%Q ->
      (inject_Z (Z.of_N mm) * 2 ^ ee == inject_Z t * 2 ^ E)%Q \/ N.even mm = true)) ->
  nearest double_of (if neg then - x else x)%Q neg mm ee.
Proof.
  intros neg x mm ee H b' s' m' e' D.
  destruct (ieee_range 11 52 b' s' m' e' ltac:(lia) ltac:(lia) D) as (R1 & R2).
  set (t := if neg then - signed s' m' else signed s' m').
  assert (T : (Z.abs t < 2 ^ 53)%Z) by (unfold t, signed; change (52 + 1) with 53 in R1; destruct neg, s'; lia).
  destruct (H t e' T R2) as (A & B).
  assert (F : forall mm' ee', (qval neg mm' ee' == (if neg then - (1) else 1) * (inject_Z (Z.of_N mm') * 2 ^ ee'))%Q)
    by (intros mm' ee'; unfold qval; destruct neg; ring).
  assert (F' : (qval s' m' e' == (if neg then - (1) else 1) * (inject_Z t * 2 ^ e'))%Q).
  { rewrite qval_signed. unfold t. destruct neg; [rewrite inject_Z_opp|]; ring. }
  assert (Fx : ((if neg then - x else x) == (if neg then - (1) else 1) * x)%Q) by (destruct neg; ring).
  assert (X : forall y z, (Qabs ((if neg then - (1) else 1) * y - (if neg then - (1) else 1) * z) == Qabs (y - z))%Q).
  { intros y z. destruct neg.
    - rewrite <- (Qabs_opp (y - z)). apply Qabs_wd. ring.
    - apply Qabs_wd. ring. }
  rewrite !F, F', Fx, !X. split; [exact A|]. intros G. destruct (B G) as [E|E]; [left|right; exact E]. rewrite E. reflexivity.
Qed.

Lemma nearest_double_nearest : forall neg n d, 0 <= n -> 0 < d ->
  match nearest_double neg n d with
  | DFin s m e => s = neg /\ nearest double_of (if neg then - frac n d else frac n d)%Q s m e
                  /\ (frac n d < inject_Z (2 ^ 1024 - 2 ^ 970))%Q
  | DInf s => s = neg /\ (inject_Z (2 ^ 1024 - 2 ^ 970) <= frac n d)%Q
  end.
Proof.
  intros neg n d N D. rewrite nearest_double_eq. destruct (n =? 0) eqn:Z0.
  - apply Z.eqb_eq in Z0 as ->. split; [reflexivity|]. assert (Fz : (frac 0 d == 0)%Q) by (unfold frac; field; apply inject_pos in D; lra).
    split.
    + apply nearest_mirror. intros t E _ _. rewrite Fz. set (w := (2 ^ (-1074))%Q).
      setoid_replace (inject_Z (Z.of_N 0) * w - 0)%Q with 0%Q by (change (inject_Z (Z.of_N 0)) with 0%Q; ring). split.
      * apply Qabs_nonneg.
      * intros _. right. reflexivity.
    + rewrite Fz. reflexivity.
  - assert (N0 : 0 < n) by lia. cbv zeta. set (q := Z.max (top n d - 52) (-1074)).
    assert (C := fraction_nearest n d N0 D). cbv zeta in C. fold q in C.
    destruct (mantissa_range n d q N0 D eq_refl) as [M1 M2]. destruct (top_spec n d N0 D) as [T1 T2].
    assert (Sp := fun j J => scaled_pow n d q j J D).
    assert (RB := round_div_nearest (fst (scaled n d q)) (snd (scaled n d q)) (2 ^ 53) (scaled_den n d q D)).
    assert (RD := round_div_bounds (fst (scaled n d q)) (snd (scaled n d q)) (scaled_den n d q D)).
    fold (mantissa n d q) in RB, RD. set (r := mantissa n d q) in *.
    assert (High := fraction_high n d D).
    (* the threshold *)
    assert (K : 2 * (2 ^ 1024 - 2 ^ 970) = 2 ^ 971 * (2 * 2 ^ 53 - 1)) by reflexivity.
    set (k := 2 ^ 1024 - 2 ^ 970) in *.
    assert (K1 : 2 ^ 1023 <= k <= 2 ^ 1024) by (unfold k; split; apply Z.leb_le; vm_compute; reflexivity). clearbody k.
    assert (S971 : q = 971 -> scaled n d q = (n, d * 2 ^ 971)) by (intros ->; reflexivity).
    assert (Th : q <= 971 -> r <> 2 ^ 53 \/ q <= 970 -> (frac n d < inject_Z k)%Q).
    { intros Q C1. apply High. destruct (Z.eq_dec q 971) as [Q1|Q1].
      - destruct C1 as [C1|C1]; [|lia]. rewrite (S971 Q1) in *. cbn [fst snd] in *.
        assert (P971 : 0 < 2 ^ 971) by reflexivity.
        assert (R1 : r <= 2 ^ 53 - 1) by lia. rewrite z53 in *. set (w := 2 ^ 971) in *. clearbody w r.
        assert (PW : 0 < d * w) by (apply Z.mul_pos_pos; lia).
        assert (DK : 2 * (d * k) = d * w * (2 * 9007199254740992 - 1)) by (replace (2 * (d * k)) with (d * (2 * k)) by ring; rewrite K; ring).
        set (y := d * w) in *. set (z := d * k) in *. clearbody y z.
        destruct (Z.eq_dec r 9007199254740991) as [R2|R2].
        + rewrite R2 in *. destruct RB as [_ RB]. destruct (Z.eq_dec (2 * n) (y * (2 * 9007199254740992 - 1))) as [G|G]; [exfalso|lia].
          destruct RB as [RB|RB]; [lia|lia|discriminate RB].
        + assert (y * (2 * r + 1) <= y * (2 * 9007199254740992 - 3)) by (apply Z.mul_le_mono_nonneg_l; lia). lia.
      - assert (L : ~ pow_le n d 1023).
        { intros L. apply T2. apply (pow_le_mono n d 1023); [exact D|unfold q in *; lia|exact L]. }
        assert (L' := not_pow_le n d 1023 L 1023 0 ltac:(lia) ltac:(lia) eq_refl). change (2 ^ 0) with 1 in L'. rewrite Z.mul_1_r in L'.
        eapply Z.lt_le_trans; [exact L'|]. apply Z.mul_le_mono_nonneg_l; [lia|apply K1]. }
    assert (Th2 : 971 < q \/ q = 971 /\ r = 2 ^ 53 -> (inject_Z k <= frac n d)%Q).
    { intros Q. apply Qnot_lt_le. intros G. apply High in G. destruct Q as [Q|[Q R]].
      - assert (L : pow_le n d 1024) by (apply (pow_le_mono n d (top n d)); [exact D|unfold q in *; lia|exact T1]).
        apply (pow_le_scale n d 1024 1024 0) in L; [|lia..]. change (2 ^ 0) with 1 in L. rewrite Z.mul_1_r in L.
        assert (d * k <= d * 2 ^ 1024) by (apply Z.mul_le_mono_nonneg_l; [lia|apply K1]). lia.
      - rewrite (S971 Q) in RD. cbn [fst snd] in RD. rewrite R in RD.
        assert (DK : 2 * (d * k) = d * 2 ^ 971 * (2 * 2 ^ 53 - 1)) by (replace (2 * (d * k)) with (d * (2 * k)) by ring; rewrite K; ring).
        lia. }
    destruct (Z.eqb_spec r (2 ^ 53)) as [R|R].
    + destruct (971 <? q + 1) eqn:Q.
      * split; [reflexivity|]. apply Th2. lia.
      * split; [reflexivity|]. split; [|apply Th; lia]. apply nearest_mirror. intros t E Ht HE.
        assert (V : (inject_Z (Z.of_N (Z.to_N (2 ^ 52))) * 2 ^ (q + 1) == inject_Z r * 2 ^ q)%Q).
        { rewrite Z2N.id by lia. rewrite (rescale _ (q + 1) q) by lia. replace (q + 1 - q) with 1 by lia. rewrite R. reflexivity. }
        rewrite V. destruct (C t E Ht HE) as (A & B). split; [exact A|]. intros _. right. reflexivity.
    + destruct (971 <? q) eqn:Q.
      * split; [reflexivity|]. apply Th2. lia.
      * split; [reflexivity|]. split; [|apply Th; lia]. apply nearest_mirror. intros t E Ht HE.
        rewrite Z2N.id by lia. destruct (C t E Ht HE) as (A & B). split; [exact A|]. intros G. destruct (B G) as [H|H]; [left; exact H|right].
        rewrite even_N, Z2N.id by lia. exact H.
Qed.

Lemma decimal_frac : forall n x, (frac (n * 10 ^ up x) (10 ^ up (- x)) == inject_Z n * inject_Z 10 ^ x)%Q.
Proof.
  intros n x. unfold frac. rewrite inject_Z_mult.
  assert (P := inject_pos _ (pow10_pos (- x))).
  assert (E : (inject_Z 10 ^ x * inject_Z (10 ^ up (- x)) == inject_Z (10 ^ up x))%Q).
  { assert (Z10 : forall k, 0 <= k -> (inject_Z (10 ^ k) == inject_Z 10 ^ k)%Q) by (intros k K; apply Zpower_Qpower; exact K).
    rewrite !Z10 by (unfold up; lia). rewrite <- Qpower_plus by discriminate. replace (x + up (- x)) with (up x) by (unfold up; lia). reflexivity. }
  rewrite <- E. field. lra.
Qed.
