(** * Proofs: the nearest double is unique, and printed floats are shortest *)
From Coq Require Import ZifyBool ZifyN QArith Qpower Qabs Lqa.
From Verif Require Import Base PyNum PyStr PyFloat Ast Spec_Num Spec_Ieee Spec_Grammar Spec_Syntax Spec_Floats Str_proofs
  Num_proofs Token_proofs Ieee_proofs Float_proofs Nearest_proofs Repr_proofs Fraction_proofs Grammatical_proofs Floats_proofs Runs2_proofs.
Open Scope Z_scope.

Definition mag (m : N) (e : Z) : Q := (inject_Z (Z.of_N m) * 2 ^ e)%Q.
Definition valid_fin (m : N) (e : Z) : Prop := valid_double (DFin false m e) = true.

Lemma valid_fin_iff : forall m e, valid_fin m e <->
  (Z.of_N m < 4503599627370496 /\ e = -1074) \/ (4503599627370496 <= Z.of_N m < 9007199254740992 /\ -1074 <= e <= 971).
Proof. intros m e. unfold valid_fin. cbn [valid_double]. rewrite n52, n53. destruct (N.ltb_spec m 4503599627370496); lia. Qed.

Lemma pow_ge_2 : forall k, 0 < k -> 2 <= 2 ^ k.
Proof. intros k K. change 2 with (2 ^ 1) at 1. apply Z.pow_le_mono_r; lia. Qed.

Lemma mag_next : forall m e m' e', valid_fin m e -> valid_fin m' e' -> (mag m e < mag m' e')%Q -> (mag (m + 1) e <= mag m' e')%Q.
Proof.
  intros m e m' e' V V' L. apply valid_fin_iff in V, V'. unfold mag in *.
  destruct (Z_le_gt_dec e e') as [E|E].
  - apply Qlt_not_le in L. rewrite (scaled_le _ _ _ _ e) in L by lia. rewrite (scaled_le _ _ _ _ e) by lia.
    rewrite Z.sub_diag in *. change (2 ^ 0) with 1 in *. lia.
  - exfalso. apply Qlt_not_le in L. apply L. rewrite (scaled_le _ _ _ _ e') by lia. rewrite Z.sub_diag. change (2 ^ 0) with 1.
    assert (P := pow_ge_2 (e - e') ltac:(lia)). nia.
Qed.
Lemma mag_same : forall m e m' e', valid_fin m e -> valid_fin m' e' -> (mag m e == mag m' e')%Q -> m = m' /\ e = e'.
Proof.
  assert (H : forall m e m' e', valid_fin m e -> valid_fin m' e' -> e <= e' -> (mag m e == mag m' e')%Q -> m = m' /\ e = e').
  { intros m e m' e' V V' E Q. apply valid_fin_iff in V, V'. unfold mag in Q.
    assert (A : (inject_Z (Z.of_N m) * 2 ^ e <= inject_Z (Z.of_N m') * 2 ^ e')%Q) by lra.
    assert (B : (inject_Z (Z.of_N m') * 2 ^ e' <= inject_Z (Z.of_N m) * 2 ^ e)%Q) by lra.
    rewrite (scaled_le _ _ _ _ e) in A by lia. rewrite (scaled_le _ _ _ _ e) in B by lia. rewrite Z.sub_diag in *. change (2 ^ 0) with 1 in *.
    destruct (Z.eq_dec e e') as [<-|N]; [rewrite Z.sub_diag in *; change (2 ^ 0) with 1 in *; lia|].
    assert (P := pow_ge_2 (e' - e) ltac:(lia)). nia. }
  intros m e m' e' V V' Q. destruct (Z_le_gt_dec e e') as [E|E]; [apply H; assumption|].
  destruct (H m' e' m e V' V ltac:(lia)) as (-> & ->); [symmetry; exact Q|auto].
Qed.

Definition signed (s : bool) (q : Q) : Q := if s then (- q)%Q else q.
Lemma qval_mag : forall s m e q, (Qabs (qval s m e - q) == Qabs (mag m e - signed s q))%Q.
Proof.
  intros [] m e q; unfold qval, mag, signed; [|reflexivity]. rewrite <- Qabs_opp. apply Qabs_wd. ring.
Qed.
Definition closest (q : Q) (m : N) (e : Z) : Prop := forall m' e', valid_fin m' e' ->
  (Qabs (mag m e - q) <= Qabs (mag m' e' - q))%Q
  /\ ((Qabs (mag m e - q) == Qabs (mag m' e' - q))%Q -> (mag m e == mag m' e')%Q \/ N.even m = true).
Lemma nearest_closest : forall q s m e, nearest double_of q s m e -> closest (signed s q) m e.
Proof.
  intros q s m e N m' e' V.
  assert (Vs : valid_double (DFin s m' e') = true) by exact V. destruct (double_pattern _ _ _ Vs) as (b & B).
  destruct (N _ _ _ _ B) as (X & Y). rewrite !qval_mag in X. rewrite !qval_mag in Y. split; [exact X|].
  intros E. destruct (Y E) as [Z|Z]; [left|right; exact Z]. unfold qval, mag in *. destruct s; lra.
Qed.

Lemma closest_order : forall q m e m' e', valid_fin m e -> valid_fin m' e' -> closest q m e -> closest q m' e' -> ~ (mag m e < mag m' e')%Q.
Proof.
  intros q m e m' e' V V' C C' L. destruct (C _ _ V') as (A & T). destruct (C' _ _ V) as (A' & T').
  assert (E : (Qabs (mag m e - q) == Qabs (mag m' e' - q))%Q) by lra.
  assert (Ev : N.even m = true) by (destruct (T E); [lra|assumption]).
  assert (Ev' : N.even m' = true) by (destruct T'; [symmetry; exact E|lra|assumption]).
  apply N.even_spec in Ev as (h & Eh). apply N.even_spec in Ev' as (h' & Eh').
  assert (Vn : valid_fin (m + 1) e) by (apply valid_fin_iff in V; apply valid_fin_iff; lia).
  assert (Nx := mag_next _ _ _ _ V V' L).
  assert (Lt : (mag m e < mag (m + 1) e)%Q).
  { unfold mag. assert (P : (0 < 2 ^ e)%Q) by apply pow2_pos. replace (Z.of_N (m + 1)) with (Z.of_N m + 1) by lia. rewrite inject_Z_plus.
    change (inject_Z 1) with 1%Q. set (x := (2 ^ e)%Q) in *. set (y := inject_Z (Z.of_N m)). nra. }
  destruct (Qlt_le_dec (mag (m + 1) e) (mag m' e')) as [S|S].
  - destruct (C _ _ Vn) as (B & _). revert B E. apply Qabs_case; intros ? ; apply Qabs_case; intros ?; [|apply Qabs_case; intros ?..|apply Qabs_case; intros ?]; try lra.
    apply Qabs_case; intros; lra.
  - destruct (mag_same (m + 1) e m' e' Vn V') as (X & _); [lra|]. lia.
Qed.
Theorem closest_unique : forall q m e m' e', valid_fin m e -> valid_fin m' e' -> closest q m e -> closest q m' e' -> m = m' /\ e = e'.
Proof.
  intros q m e m' e' V V' C C'. apply mag_same; try assumption.
  assert (A := closest_order _ _ _ _ _ V V' C C'). assert (B := closest_order _ _ _ _ _ V' V C' C). apply Qnot_lt_le in A, B. lra.
Qed.
Theorem rounded_unique : forall d d' neg q, valid_double d = true -> valid_double d' = true -> rounded_to d neg q -> rounded_to d' neg q -> d = d'.
Proof.
  intros [s m e|s] [s' m' e'|s'] neg q V V' H H'; unfold rounded_to in *.
  - destruct H as (-> & H & _). destruct H' as (-> & H' & _). apply nearest_closest in H, H'.
    destruct (closest_unique _ _ _ _ _ V V' H H') as (-> & ->). reflexivity.
  - destruct H as (_ & _ & H). destruct H' as (_ & H'). apply Qlt_not_le in H. contradiction.
  - destruct H as (_ & H). destruct H' as (_ & _ & H'). apply Qlt_not_le in H'. contradiction.
  - destruct H as (-> & _). destruct H' as (-> & _). reflexivity.
Qed.

(** ** Between a number and its double nothing else is nearer *)
Lemma closest_between : forall q c m e, valid_fin m e -> closest c m e ->
  (c <= q /\ q <= mag m e \/ mag m e <= q /\ q <= c)%Q -> closest q m e.
Proof.
  intros q c m e V C B m' e' V'. destruct (C _ _ V') as (A & T). destruct (Qeq_dec (mag m e) (mag m' e')) as [E|E].
  { rewrite E. split; [apply Qle_refl|]. intros _. left. reflexivity. }
  destruct (Qlt_le_dec (mag m e) (mag m' e')) as [L|L]; destruct B as [(B1 & B2)|(B1 & B2)].
  - split; [revert A; repeat (apply Qabs_case; intros ?); lra|]. intros X. exfalso. apply E. revert X A; repeat (apply Qabs_case; intros ?); lra.
  - split; [revert A; repeat (apply Qabs_case; intros ?); lra|]. intros X. apply T. revert X A; repeat (apply Qabs_case; intros ?); lra.
  - assert (L' : (mag m' e' < mag m e)%Q) by (apply Qle_lteq in L as [L|L]; [exact L|destruct E; symmetry; exact L]).
    split; [revert A; repeat (apply Qabs_case; intros ?); lra|]. intros X. apply T. revert X A; repeat (apply Qabs_case; intros ?); lra.
  - assert (L' : (mag m' e' < mag m e)%Q) by (apply Qle_lteq in L as [L|L]; [exact L|destruct E; symmetry; exact L]).
    split; [revert A; repeat (apply Qabs_case; intros ?); lra|]. intros X. exfalso. apply E. revert X A; repeat (apply Qabs_case; intros ?); lra.
Qed.

Lemma mag_small : forall m e, valid_fin m e -> (mag m e < double_overflow)%Q.
Proof.
  intros m e V. apply valid_fin_iff in V.
  assert (A : (mag m e <= inject_Z (2 ^ 53 - 1) * 2 ^ 971)%Q).
  { unfold mag. rewrite z53. rewrite (scaled_le _ _ _ _ e) by lia. rewrite Z.sub_diag. change (2 ^ 0) with 1.
    assert (P : 0 < 2 ^ (971 - e)) by (apply Z.pow_pos_nonneg; lia). nia. }
  eapply Qle_lt_trans; [exact A|]. reflexivity.
Qed.

(** ** Decimals *)
Definition dec (n x : Z) : Q := (inject_Z n * inject_Z 10 ^ x)%Q.
Lemma ten_pos : forall x, (0 < inject_Z 10 ^ x)%Q.
Proof. intros x. apply Qpower_0_lt. reflexivity. Qed.
Lemma dec_shift : forall n x y, (y <= x)%Z -> (dec n x == dec (n * 10 ^ (x - y)) y)%Q.
Proof.
  intros n x y L. unfold dec. rewrite inject_Z_mult, Zpower_Qpower by lia. rewrite <- Qmult_assoc, <- Qpower_plus by discriminate.
  replace (x - y + y) with x by lia. reflexivity.
Qed.
Lemma dec_le : forall n n' x, (dec n x <= dec n' x)%Q <-> n <= n'.
Proof. intros n n' x. unfold dec. rewrite Qmult_le_r by apply ten_pos. rewrite <- Zle_Qle. reflexivity. Qed.
Lemma dec_nonneg : forall n x, 0 <= n -> (0 <= dec n x)%Q.
Proof.
  intros n x H. unfold dec. apply Qmult_le_0_compat; [|apply Qlt_le_weak, ten_pos].
  change 0%Q with (inject_Z 0). rewrite <- Zle_Qle. exact H.
Qed.

(** A decimal between a decimal read as a double and the double is read as
    that double. *)
Lemma decimal_between : forall c x n y m e, 0 <= c -> 0 <= n -> decimal_double false c x = DFin false m e ->
  (dec c x <= dec n y /\ dec n y <= mag m e \/ mag m e <= dec n y /\ dec n y <= dec c x)%Q -> decimal_double false n y = DFin false m e.
Proof.
  intros c x n y m e C N D B.
  assert (V : valid_fin m e) by (unfold valid_fin; rewrite <- D; apply decimal_double_valid, C).
  assert (R := decimal_double_rounded false c x C). rewrite D in R. fold (dec c x) in R. destruct R as (_ & R & O).
  apply nearest_closest in R. cbn [signed] in R.
  assert (K := closest_between _ _ _ _ V R B).
  assert (R' := decimal_double_rounded false n y N). fold (dec n y) in R'.
  assert (V' := decimal_double_valid false n y N).
  destruct (decimal_double false n y) as [s m' e'|s]; destruct R' as (-> & R').
  - destruct R' as (R' & _). apply nearest_closest in R'. cbn [signed] in R'. destruct (closest_unique _ _ _ _ _ V V' K R') as (-> & ->). reflexivity.
  - exfalso. assert (S := mag_small _ _ V). rewrite Qabs_pos in O by (apply dec_nonneg, C). rewrite Qabs_pos in R' by (apply dec_nonneg, N).
    fold (dec n y) in R'. set (dov := double_overflow) in *. destruct B as [(_ & B)|(_ & B)]; lra.
Qed.

Section Digits.
Variables (m : N) (e : Z).
Hypothesis Hm : (0 < m)%N.
Hypothesis Hv : valid_double (DFin false m e) = true.
Let a := Z.of_N m * 2 ^ up e.
Let b := 2 ^ up (- e).
Let p := point_position a b.

Lemma a_is : (inject_Z a == mag m e * inject_Z b)%Q.
Proof.
  unfold a, b, mag. rewrite inject_Z_mult. rewrite !(Zpower_Qpower 2) by (unfold up; lia). change (inject_Z 2) with 2%Q.
  rewrite <- Qmult_assoc, <- Qpower_plus by discriminate. replace (e + up (- e)) with (up e) by (unfold up; lia). reflexivity.
Qed.
Definition top_of (x : Z) : Z := a * 10 ^ up (- x).
Definition bot_of (x : Z) : Z := b * 10 ^ up x.
Lemma bot_pos : forall x, 0 < bot_of x.
Proof. intros x. apply Z.mul_pos_pos; [apply pow2_up_pos|apply pow10_pos]. Qed.
Lemma dec_dist : forall n x, ((dec n x - mag m e) * inject_Z (bot_of x) == inject_Z (n * bot_of x - top_of x) * inject_Z 10 ^ x)%Q.
Proof.
  intros n x. unfold dec, top_of, bot_of. replace (n * (b * 10 ^ up x) - a * 10 ^ up (- x)) with (n * (b * 10 ^ up x) + - (a * 10 ^ up (- x))) by ring.
  rewrite inject_Z_plus, inject_Z_opp, !inject_Z_mult, a_is. rewrite !(Zpower_Qpower 10) by (unfold up; lia).
  assert (X : (inject_Z 10 ^ up x == inject_Z 10 ^ up (- x) * inject_Z 10 ^ x)%Q).
  { rewrite <- Qpower_plus by discriminate. replace (up (- x) + x) with (up x) by (unfold up; lia). reflexivity. }
  rewrite X. ring.
Qed.
Lemma dec_cmp : forall n x, (dec n x <= mag m e)%Q <-> n * bot_of x <= top_of x.
Proof.
  intros n x. assert (D := dec_dist n x). assert (B := bot_pos x). apply inject_pos in B. assert (T := ten_pos x).
  set (i := (inject_Z 10 ^ x)%Q) in *. set (w := inject_Z (bot_of x)) in *. set (z := n * bot_of x - top_of x) in *.
  assert (Z0 : (inject_Z z <= 0)%Q <-> z <= 0) by (change 0%Q with (inject_Z 0); rewrite <- Zle_Qle; reflexivity).
  split; intros H.
  - assert (z <= 0); [|unfold z in *; lia]. apply Z0. apply Qnot_lt_le. intros L.
    assert ((0 < inject_Z z * i)%Q) by (apply Qmult_lt_0_compat; assumption). nra.
  - assert (Z1 : z <= 0) by (unfold z in *; lia). apply Z0 in Z1. apply Qnot_lt_le. intros L.
    assert ((0 < (dec n x - mag m e) * w)%Q) by (apply Qmult_lt_0_compat; lra). nra.
Qed.
Lemma dec_floor : forall n x, (dec n x <= mag m e)%Q <-> n <= top_of x / bot_of x.
Proof.
  intros n x. rewrite dec_cmp. assert (B := bot_pos x). split; intros H.
  - apply Z.div_le_lower_bound; [exact B|]. lia.
  - assert (M := Z.mul_div_le (top_of x) (bot_of x) B). nia.
Qed.
Lemma pos_low : (dec 1 (p - 1) <= mag m e)%Q.
Proof.
  destruct (point_position_spec m e Hm Hv _ eq_refl) as (L & _). fold a b in L. fold p in L. rewrite lt_pow10_up in L. apply Z.ltb_ge in L.
  apply dec_cmp. unfold top_of, bot_of. lia.
Qed.
Lemma pos_high : (mag m e < dec 1 p)%Q.
Proof.
  destruct (point_position_spec m e Hm Hv _ eq_refl) as (_ & L). fold a b in L. fold p in L. rewrite lt_pow10_up in L. apply Z.ltb_lt in L.
  apply Qnot_le_lt. intros H. apply dec_cmp in H. unfold top_of, bot_of in H. lia.
Qed.

Section K.
Variable k : Z.
Hypothesis Hk : 1 <= k.
Let x0 := p - k.
Let low := top_of x0 / bot_of x0.
Lemma low_big : 10 ^ (k - 1) <= low.
Proof. apply dec_floor. assert (H := dec_shift 1 (p - 1) x0 ltac:(unfold x0; lia)). rewrite Z.mul_1_l in H. replace (p - 1 - x0) with (k - 1) in H by (unfold x0; lia). rewrite <- H. apply pos_low. Qed.
Lemma low_small : low < 10 ^ k.
Proof.
  apply Z.nle_gt. intros H. apply dec_floor in H. assert (E := dec_shift 1 p x0 ltac:(unfold x0; lia)). rewrite Z.mul_1_l in E.
  replace (p - x0) with k in E by (unfold x0; lia). rewrite <- E in H. assert (Q := pos_high). lra.
Qed.
(** Decimals with [k] digits are at most the one below or at least the one
    above the double. *)
Lemma grid : forall n x, 0 < n < 10 ^ k ->
  ((dec n x <= mag m e)%Q -> (dec n x <= dec low x0)%Q) /\ ((mag m e < dec n x)%Q -> (dec (low + 1) x0 <= dec n x)%Q).
Proof.
  intros n x N. destruct (Z_le_gt_dec x0 x) as [X|X].
  - rewrite !(dec_shift n x x0 X). rewrite !dec_le. split.
    + intros H. apply dec_floor in H. exact H.
    + intros H. apply Qlt_not_le in H. rewrite dec_floor in H. fold low in H. lia.
  - assert (A : (dec n x < dec 1 (p - 1))%Q).
    { rewrite (dec_shift 1 (p - 1) x) by (unfold x0 in X; lia). apply Qnot_le_lt. rewrite dec_le.
      assert (10 ^ k <= 10 ^ (p - 1 - x)) by (apply Z.pow_le_mono_r; unfold x0 in X; lia). lia. }
    assert (L := pos_low). split; [|lra]. intros _.
    assert (B : (dec 1 (p - 1) <= dec low x0)%Q); [|lra].
    rewrite (dec_shift 1 (p - 1) x0) by (unfold x0; lia). apply dec_le. replace (p - 1 - x0) with (k - 1) by (unfold x0; lia). assert (Q := low_big). lia.
Qed.
Lemma near_is : let n := round_div (top_of x0) (bot_of x0) in (n = low \/ n = low + 1)
  /\ (Qabs (dec n x0 - mag m e) <= Qabs (dec low x0 - mag m e))%Q /\ (Qabs (dec n x0 - mag m e) <= Qabs (dec (low + 1) x0 - mag m e))%Q.
Proof.
  cbv zeta. assert (L1 : (dec low x0 <= mag m e)%Q) by (apply dec_floor; unfold low; lia).
  assert (L2 : (mag m e < dec (low + 1) x0)%Q) by (apply Qnot_le_lt; intros H; apply dec_floor in H; fold low in H; lia).
  assert (B := bot_pos x0). assert (DM := Z.div_mod (top_of x0) (bot_of x0) ltac:(lia)). assert (MB := Z.mod_pos_bound (top_of x0) (bot_of x0) B).
  assert (D1 := dec_dist low x0). assert (D2 := dec_dist (low + 1) x0). assert (T := ten_pos x0).
  unfold round_div. fold low in DM |- *. set (r := top_of x0 mod bot_of x0) in *. set (w := bot_of x0) in *.
  replace (low * w - top_of x0) with (- r) in D1 by lia. replace ((low + 1) * w - top_of x0) with (w - r) in D2 by lia.
  set (d1 := dec low x0) in *. set (d2 := dec (low + 1) x0) in *. set (i := (inject_Z 10 ^ x0)%Q) in *.
  assert (W := inject_pos w B).
  assert (Cmp : forall u v, u <= v -> (inject_Z u * i <= inject_Z v * i)%Q) by (intros u v H; apply Qmult_le_r; [exact T|rewrite <- Zle_Qle; exact H]).
  rewrite inject_Z_opp in D1.
  assert (A1 : (Qabs (d1 - mag m e) == mag m e - d1)%Q) by (rewrite Qabs_neg by lra; ring).
  assert (A2 : (Qabs (d2 - mag m e) == d2 - mag m e)%Q) by (apply Qabs_pos; lra).
  destruct (Z.ltb_spec (2 * r) w).
  - split; [left; reflexivity|]. split; [apply Qle_refl|]. fold d1. rewrite A1, A2. assert (C := Cmp r (w - r) ltac:(lia)).
    apply Qnot_lt_le. intros X.
    assert (Y : ((d2 - mag m e) * inject_Z w < (mag m e - d1) * inject_Z w)%Q) by (apply Qmult_lt_r; assumption). lra.
  - destruct (Z.ltb_spec w (2 * r)).
    + split; [right; reflexivity|]. split; [|apply Qle_refl]. fold d2. rewrite A1, A2. assert (C := Cmp (w - r) r ltac:(lia)).
      apply Qnot_lt_le. intros X.
      assert (Y : ((mag m e - d1) * inject_Z w < (d2 - mag m e) * inject_Z w)%Q) by (apply Qmult_lt_r; assumption). lra.
    + assert (C1 := Cmp (w - r) r ltac:(lia)). assert (C2 := Cmp r (w - r) ltac:(lia)).
      assert (E : (d2 - mag m e == mag m e - d1)%Q).
      { apply Qmult_inj_r with (z := inject_Z w); [intros Z; lra|]. lra. }
      destruct (Z.even low); (split; [auto|]); fold d1 d2; rewrite A1, A2; split; lra.
Qed.

Lemma try_unfold : try_digits (DFin false m e) a b p k =
  (let good n := same_double (decimal_double false n x0) (DFin false m e) in
   let near := round_div (top_of x0) (bot_of x0) in
   if good near then Some (near, x0) else if good low then Some (low, x0) else if good (low + 1) then Some (low + 1, x0) else None).
Proof.
  unfold try_digits. cbv zeta. fold x0.
  assert (E1 : (if 0 <=? x0 then a else a * 10 ^ (- x0)) = top_of x0).
  { unfold top_of, up. destruct (0 <=? x0) eqn:E; [rewrite Z.max_l by lia; change (10 ^ 0) with 1; lia|rewrite Z.max_r by lia; reflexivity]. }
  assert (E2 : (if 0 <=? x0 then b * 10 ^ x0 else b) = bot_of x0).
  { unfold bot_of, up. destruct (0 <=? x0) eqn:E; [rewrite Z.max_r by lia; reflexivity|rewrite Z.max_l by lia; change (10 ^ 0) with 1; lia]. }
  rewrite E1, E2. reflexivity.
Qed.
Lemma low_nonneg : 0 <= low.
Proof. assert (H := low_big). assert (0 < 10 ^ (k - 1)) by (apply Z.pow_pos_nonneg; lia). lia. Qed.
Lemma below_good : forall n x, 0 < n < 10 ^ k -> decimal_double false n x = DFin false m e -> (dec n x <= mag m e)%Q ->
  decimal_double false low x0 = DFin false m e.
Proof.
  intros n x N D L. eapply (decimal_between n x); [lia|apply low_nonneg|exact D|]. left. split; [apply grid; assumption|].
  apply dec_floor. unfold low. lia.
Qed.
Lemma above_good : forall n x, 0 < n < 10 ^ k -> decimal_double false n x = DFin false m e -> (mag m e < dec n x)%Q ->
  decimal_double false (low + 1) x0 = DFin false m e.
Proof.
  intros n x N D L. assert (H := low_nonneg). eapply (decimal_between n x); [lia|lia|exact D|]. right. split; [|apply grid; assumption].
  apply Qlt_le_weak, Qnot_le_lt. intros X. apply dec_floor in X. fold low in X. lia.
Qed.
Lemma not_same : forall n, same_double (decimal_double false n x0) (DFin false m e) = false -> decimal_double false n x0 <> DFin false m e.
Proof. intros n H E. rewrite E, same_double_refl in H. discriminate. Qed.
Lemma try_none : try_digits (DFin false m e) a b p k = None -> forall n x, 0 < n < 10 ^ k -> decimal_double false n x <> DFin false m e.
Proof.
  intros T n x N D. rewrite try_unfold in T. cbv beta zeta in T. destruct (same_double _ _); [discriminate|].
  destruct (same_double (decimal_double false low x0) _) eqn:G1; [discriminate|]. destruct (same_double (decimal_double false (low + 1) x0) _) eqn:G2; [discriminate|].
  apply not_same in G1, G2. destruct (Qlt_le_dec (mag m e) (dec n x)) as [L|L].
  - apply G2. eapply above_good; eassumption.
  - apply G1. eapply below_good; eassumption.
Qed.
Lemma try_some : forall n' x', try_digits (DFin false m e) a b p k = Some (n', x') ->
  x' = x0 /\ 0 < n' <= 10 ^ k /\ decimal_double false n' x' = DFin false m e
  /\ forall n x, 0 < n < 10 ^ k -> decimal_double false n x = DFin false m e -> (Qabs (dec n' x' - mag m e) <= Qabs (dec n x - mag m e))%Q.
Proof.
  intros n' x' T. rewrite try_unfold in T. cbv beta zeta in T.
  assert (B1 := low_big). assert (B2 := low_small). assert (P : 0 < 10 ^ (k - 1)) by (apply Z.pow_pos_nonneg; lia).
  destruct near_is as (N1 & N2 & N3). set (near := round_div (top_of x0) (bot_of x0)) in *.
  assert (L1 : (dec low x0 <= mag m e)%Q) by (apply dec_floor; unfold low; lia).
  assert (L2 : (mag m e < dec (low + 1) x0)%Q) by (apply Qnot_le_lt; intros H; apply dec_floor in H; fold low in H; lia).
  destruct (same_double (decimal_double false near x0) _) eqn:G0.
  { injection T as <- <-. split; [reflexivity|]. split; [lia|]. split; [apply same_double_eq, G0|]. intros n x N D.
    destruct (grid n x N) as (A1 & A2). destruct (Qlt_le_dec (mag m e) (dec n x)) as [L|L].
    - specialize (A2 L). eapply Qle_trans; [exact N3|]. repeat (apply Qabs_case; intros ?); lra.
    - specialize (A1 L). eapply Qle_trans; [exact N2|]. repeat (apply Qabs_case; intros ?); lra. }
  destruct (same_double (decimal_double false low x0) _) eqn:G1.
  { injection T as <- <-. split; [reflexivity|]. split; [lia|]. split; [apply same_double_eq, G1|]. intros n x N D.
    destruct (grid n x N) as (A1 & A2). destruct (Qlt_le_dec (mag m e) (dec n x)) as [L|L].
    - exfalso. assert (G2 := above_good n x N D L). destruct N1 as [->|N1]; [congruence|]. rewrite N1 in G0. apply not_same in G0. contradiction.
    - specialize (A1 L). repeat (apply Qabs_case; intros ?); lra. }
  destruct (same_double (decimal_double false (low + 1) x0) _) eqn:G2; [|discriminate].
  injection T as <- <-. split; [reflexivity|]. split; [lia|]. split; [apply same_double_eq, G2|]. intros n x N D.
  destruct (grid n x N) as (A1 & A2). destruct (Qlt_le_dec (mag m e) (dec n x)) as [L|L].
  - specialize (A2 L). repeat (apply Qabs_case; intros ?); lra.
  - exfalso. apply not_same in G1. apply G1. eapply below_good; eassumption.
Qed.
End K.

Lemma shortest_spec : forall f k n x, 1 <= k -> (k + Z.of_nat f = 18)%Z -> (1 <= f)%nat ->
  shortest f (DFin false m e) a b p k = (n, x) ->
  exists j, k <= j /\ try_digits (DFin false m e) a b p j = Some (n, x)
    /\ forall i, k <= i < j -> try_digits (DFin false m e) a b p i = None.
Proof.
  induction f as [|f IH]; intros k n x K F F1 H; [lia|]. cbn [shortest] in H.
  destruct (try_digits _ a b p k) as [[n' x']|] eqn:T.
  - inversion H; subst. exists k. split; [lia|]. split; [exact T|]. intros i Hi. lia.
  - destruct (Nat.eq_dec f 0) as [->|N0].
    + replace k with 17 in T by lia. destruct (try_seventeen m e Hm Hv T).
    + destruct (IH (k + 1)%Z n x) as (j & J1 & J2 & J3); [lia|lia|lia|exact H|]. exists j. split; [lia|]. split; [exact J2|].
      intros i Hi. destruct (Z.eq_dec i k) as [->|]; [exact T|]. apply J3. lia.
Qed.
End Digits.

(** ** The printed text *)
Definition decs (neg : bool) (n x : Z) : Q := (inject_Z (if neg then - n else n) * inject_Z 10 ^ x)%Q.
Lemma decs_signed : forall neg n x, (signed neg (decs neg n x) == dec n x)%Q.
Proof. intros [] n x; unfold decs, dec, signed; [rewrite inject_Z_opp; ring|reflexivity]. Qed.
Lemma unsign : forall neg n x m e, 0 <= n -> decimal_double neg n x = DFin neg m e -> decimal_double false n x = DFin false m e.
Proof.
  intros neg n x m e N H. assert (R := decimal_double_rounded neg n x N). rewrite H in R. destruct R as (_ & _ & O).
  assert (R' := decimal_double_rounded false n x N). destruct (decimal_double false n x) as [s m' e'|s] eqn:E; destruct R' as (-> & R').
  - apply (decimal_double_sign neg) in E. congruence.
  - exfalso. assert (Q : (Qabs (decs neg n x) == Qabs (dec n x))%Q).
    { rewrite <- (decs_signed neg n x). destruct neg; unfold signed; [rewrite Qabs_opp|]; reflexivity. }
    unfold decs, dec in Q. rewrite Q in O. set (dov := double_overflow) in *. lra.
Qed.
Lemma distance : forall neg n x m e q, (q == decs neg n x)%Q -> (Qabs (q - qval neg m e) == Qabs (dec n x - mag m e))%Q.
Proof.
  intros neg n x m e q E. rewrite <- (Qabs_opp (q - _)). setoid_replace (- (q - qval neg m e))%Q with (qval neg m e - q)%Q by ring.
  rewrite qval_mag, <- (Qabs_opp (dec n x - _)). apply Qabs_wd. rewrite <- (decs_signed neg n x). destruct neg; unfold signed; rewrite E; ring.
Qed.

Theorem float_repr_shortest : forall neg m e, valid_double (DFin neg m e) = true -> (0 < m)%N ->
  exists q k, float_text (float_repr (DFin neg m e)) neg q /\ has_digits k neg q /\ rounded_to (DFin neg m e) neg q
    /\ forall j q', has_digits j neg q' -> rounded_to (DFin neg m e) neg q' ->
         k <= j /\ (j = k -> (Qabs (q - qval neg m e) <= Qabs (q' - qval neg m e))%Q).
Proof.
  intros neg m e V M. assert (V' : valid_double (DFin false m e) = true) by exact V.
  cbn [float_repr]. destruct (m =? 0)%N eqn:Z0; [lia|]. cbv zeta.
  set (a := if (0 <=? e)%Z then _ else Z.of_N m). set (b := if (0 <=? e)%Z then 1%Z else _).
  assert (Ea : a = (Z.of_N m * 2 ^ up e)%Z).
  { unfold a, up. destruct (0 <=? e)%Z eqn:E; [rewrite Z.max_r by lia; reflexivity|rewrite Z.max_l by lia].
    change (2 ^ 0)%Z with 1%Z. lia. }
  assert (Eb : b = (2 ^ up (- e))%Z).
  { unfold b, up. destruct (0 <=? e)%Z eqn:E; [rewrite Z.max_l by lia|rewrite Z.max_r by lia]; reflexivity. }
  destruct (shortest 17 (DFin false m e) a b (point_position a b) 1) as [n x] eqn:S.
  rewrite Ea, Eb in S. apply shortest_spec in S; [|exact M|exact V'|lia|reflexivity|lia]. clearbody a b. subst a b.
  destruct S as (k & K & T & U). destruct (try_some m e M V' k K _ _ T) as (-> & N & D & B).
  destruct (format_repr_value n (point_position (Z.of_N m * 2 ^ up e) (2 ^ up (- e)) - k) ltac:(lia)) as (n' & x' & N' & (ds & fs & point & expo & y & S1 & S2 & S3 & S4 & S5 & S6) & _ & v & u & w & U1 & U2 & U3 & U4 & U5).
  set (x := point_position (Z.of_N m * 2 ^ up e) (2 ^ up (- e)) - k) in *. clearbody x.
  assert (Q : (decs neg n' x' == decs neg n x)%Q).
  { assert (Q : (dec n' x' == dec n x)%Q).
    { rewrite U3, U4.
      assert (P : forall i j, 0 <= i -> (dec (v * 10 ^ i) j == dec v (i + j))%Q).
      { intros i j I0. rewrite (dec_shift v (i + j) j) by lia. replace (i + j - j) with i by lia. reflexivity. }
      rewrite (P w), (P u) by assumption.
      replace (w + x') with (u + x) by lia. reflexivity. }
    rewrite <- !(decs_signed neg) in Q. destruct neg; unfold signed in Q; [|exact Q]. rewrite <- (Qopp_involutive (decs true n' x')), Q. ring. }
  assert (Hd : has_digits k neg (decs neg n x)).
  { destruct (Z.eq_dec n (10 ^ k)) as [->|Ne].
    - exists 1, (x + k). split; [assert (10 ^ 1 <= 10 ^ k) by (apply Z.pow_le_mono_r; lia); lia|].
      assert (E := dec_shift 1 (x + k) x ltac:(lia)). rewrite Z.mul_1_l in E. replace (x + k - x) with k in E by lia.
      fold (decs neg 1 (x + k)). rewrite <- !(decs_signed neg) in E. destruct neg; unfold signed in E; [|symmetry; exact E].
      rewrite <- (Qopp_involutive (decs true (10 ^ k) x)), <- E. ring.
    - exists n, x. split; [lia|reflexivity]. }
  exists (decs neg n x), k. split; [|split; [exact Hd|split]].
  - exists (if neg then "-" else "")%string, ds, fs, n', point, expo, y. split; [destruct neg; simpl; auto|]. repeat (split; [assumption|]).
    split; [rewrite S5; reflexivity|]. rewrite <- S6. symmetry. exact Q.
  - assert (R := decimal_double_rounded neg n x ltac:(lia)). rewrite (decimal_double_sign neg _ _ _ _ D) in R. exact R.
  - intros j q' (n1 & x1 & N1 & Q1) R1. fold (decs neg n1 x1) in Q1.
    assert (D1 : decimal_double false n1 x1 = DFin false m e).
    { apply (unsign neg); [lia|]. apply (rounded_unique _ _ neg (decs neg n1 x1)); [apply decimal_double_valid; lia|exact V| |].
      - apply decimal_double_rounded. lia.
      - apply (rounded_wd _ _ _ _ Q1 R1). }
    assert (J : k <= j).
    { destruct (Z_le_gt_dec k j) as [|G]; [assumption|]. exfalso. assert (J1 : 1 <= j).
      { destruct (Z_le_gt_dec 1 j) as [|G1]; [assumption|]. exfalso. assert (10 ^ j <= 10 ^ 0) by (apply Z.pow_le_mono_r; lia). change (10 ^ 0) with 1 in *. lia. }
      exact (try_none m e M V' j J1 (U j ltac:(lia)) n1 x1 N1 D1). }
    split; [exact J|]. intros ->. rewrite (distance neg n x) by reflexivity. rewrite (distance neg n1 x1) by exact Q1. apply B; assumption.
Qed.

Theorem printed_shortest : forall f neg m e, float_ok f = true -> fval f = DFin neg m e -> (0 < m)%N ->
  exists q k, float_text (frepr f) neg q /\ has_digits k neg q /\ rounded_to (fval f) neg q
    /\ forall j q', has_digits j neg q' -> rounded_to (fval f) neg q' ->
         k <= j /\ (j = k -> (Qabs (q - qval neg m e) <= Qabs (q' - qval neg m e))%Q).
Proof.
  intros f neg m e H E M. rewrite (float_ok_repr f H), E. apply float_repr_shortest; [|exact M]. rewrite <- E. apply float_ok_valid, H.
Qed.
