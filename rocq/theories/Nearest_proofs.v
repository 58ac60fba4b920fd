(** * Proofs about the doubles nearest to fractions *)
From Coq Require Import ZifyBool.
From Verif Require Import Base PyNum PyStr PyFloat Float_proofs.
Open Scope Z_scope.

Lemma round_div_unique : forall n d k, 0 < d -> d * (2 * k - 1) < 2 * n < d * (2 * k + 1) -> round_div n d = k.
Proof.
  intros n d k D H. assert (B := round_div_bounds n d D). set (m := round_div n d) in *. clearbody m.
  destruct (Z.lt_trichotomy m k) as [L|[E|L]]; [exfalso|exact E|exfalso].
  - assert (d * (2 * m + 1) <= d * (2 * k - 1)) by nia. lia.
  - assert (d * (2 * k + 1) <= d * (2 * m - 1)) by nia. lia.
Qed.
Lemma round_div_scale : forall n d c, 0 < d -> 0 < c -> round_div (c * n) (c * d) = round_div n d.
Proof.
  intros n d c D C. unfold round_div. rewrite Z.div_mul_cancel_l, Z.mul_mod_distr_l by lia.
  replace (2 * (c * (n mod d)) <? c * d) with (2 * (n mod d) <? d) by nia.
  replace (c * d <? 2 * (c * (n mod d))) with (d <? 2 * (n mod d)) by nia. reflexivity.
Qed.

Lemma top_unique : forall n d k, 0 < n -> 0 < d -> pow_le n d k -> ~ pow_le n d (k + 1) -> top n d = k.
Proof.
  intros n d k N D H1 H2. destruct (top_spec n d N D) as [T1 T2]. set (t := top n d) in *. clearbody t.
  destruct (Z.lt_trichotomy t k) as [L|[E|L]]; [exfalso|exact E|exfalso].
  - apply T2, (pow_le_mono n d k); [exact D|lia|exact H1].
  - apply H2, (pow_le_mono n d t); [exact D|lia|exact T1].
Qed.

Lemma pow_le_common : forall n d c k, 0 < c -> pow_le (c * n) (c * d) k <-> pow_le n d k.
Proof.
  intros n d c k C. unfold pow_le. destruct (0 <=? k).
  - set (a := 2 ^ k). clearbody a. split; nia.
  - set (a := 2 ^ (- k)). clearbody a. split; nia.
Qed.

(** Only the fraction counts. *)
Lemma nearest_double_common : forall neg n d c, 0 <= n -> 0 < d -> 0 < c ->
  nearest_double neg (c * n) (c * d) = nearest_double neg n d.
Proof.
  intros neg n d c N D C. rewrite !nearest_double_eq. replace (c * n =? 0) with (n =? 0) by nia.
  destruct (n =? 0) eqn:E; [reflexivity|].
  assert (T : top (c * n) (c * d) = top n d).
  { destruct (top_spec n d ltac:(lia) D) as [T1 T2]. apply top_unique; [nia|nia| |].
    - apply pow_le_common; assumption.
    - intros H. apply T2. apply pow_le_common in H; assumption. }
  cbv zeta. rewrite T. set (q := Z.max (top n d - 52) (-1074)). clearbody q.
  assert (M : mantissa (c * n) (c * d) q = mantissa n d q); [|rewrite M; reflexivity].
  unfold mantissa, scaled. destruct (0 <=? q) eqn:Q; simpl.
  - rewrite <- Z.mul_assoc. apply round_div_scale; [|exact C].
    apply Z.mul_pos_pos; [exact D|apply Z.pow_pos_nonneg; lia].
  - rewrite <- Z.mul_assoc. apply round_div_scale; assumption.
Qed.

Definition up (k : Z) : Z := Z.max 0 k.

Lemma decimal_double_up : forall neg n e, decimal_double neg n e = nearest_double neg (n * 10 ^ up e) (10 ^ up (- e)).
Proof.
  intros neg n e. unfold decimal_double, up. destruct (0 <=? e) eqn:E.
  - rewrite Z.max_r, Z.max_l by lia. reflexivity.
  - rewrite Z.max_l, Z.max_r by lia. change (10 ^ 0) with 1. rewrite Z.mul_1_r. reflexivity.
Qed.
Lemma scaled_up : forall n d q, scaled n d q = (n * 2 ^ up (- q), d * 2 ^ up q).
Proof.
  intros n d q. unfold scaled, up. destruct (0 <=? q) eqn:Q.
  - rewrite Z.max_l, Z.max_r by lia. change (2 ^ 0) with 1. rewrite Z.mul_1_r. reflexivity.
  - rewrite Z.max_r, Z.max_l by lia. change (2 ^ 0) with 1. rewrite Z.mul_1_r. reflexivity.
Qed.

Lemma pow10_pos : forall k, 0 < 10 ^ up k.
Proof. intros k. apply Z.pow_pos_nonneg; unfold up; lia. Qed.
Lemma pow2_up_pos : forall k, 0 < 2 ^ up k.
Proof. intros k. apply Z.pow_pos_nonneg; unfold up; lia. Qed.

(** Zeros may move from the digits to the exponent. *)
Lemma decimal_double_shift : forall neg n k e, 0 <= n -> 0 <= k ->
  decimal_double neg (n * 10 ^ k) e = decimal_double neg n (e + k).
Proof.
  intros neg n k e N K. rewrite !decimal_double_up.
  assert (P := pow10_pos). assert (PK : 0 < 10 ^ k) by (apply Z.pow_pos_nonneg; lia).
  assert (E : 10 ^ k * 10 ^ up e * 10 ^ up (- (e + k)) = 10 ^ up (e + k) * 10 ^ up (- e)).
  { rewrite <- !Z.pow_add_r by (unfold up; lia). f_equal. unfold up. lia. }
  assert (P1 := P e). assert (P2 := P (- e)). assert (P3 := P (e + k)). assert (P4 := P (- (e + k))).
  set (a := 10 ^ up e) in *. set (b := 10 ^ up (- e)) in *. set (c := 10 ^ up (e + k)) in *.
  set (f := 10 ^ up (- (e + k))) in *. set (t := 10 ^ k) in *. clearbody a b c f t. clear P.
  rewrite <- (nearest_double_common neg (n * t * a) b f) by nia.
  rewrite <- (nearest_double_common neg (n * c) f b) by nia.
  f_equal; nia.
Qed.

Lemma nearest_double_sign : forall neg n d m e, nearest_double false n d = DFin false m e -> nearest_double neg n d = DFin neg m e.
Proof.
  intros neg n d m e. unfold nearest_double. destruct (n =? 0); [intros E; inversion E; reflexivity|].
  cbv zeta. set (q := Z.max _ _). set (r := if 0 <=? q then _ else _).
  destruct (if r =? 2 ^ 53 then _ else _) as [m' q']. destruct (971 <? q'); [discriminate|].
  intros E. inversion E. reflexivity.
Qed.
Lemma decimal_double_sign : forall neg n e m x, decimal_double false n e = DFin false m x -> decimal_double neg n e = DFin neg m x.
Proof. intros neg n e m x. rewrite !decimal_double_up. apply nearest_double_sign. Qed.

Lemma z51 : 2 ^ 51 = 2251799813685248. Proof. reflexivity. Qed.
Lemma z52 : 2 ^ 52 = 4503599627370496. Proof. reflexivity. Qed.
Lemma z53 : 2 ^ 53 = 9007199254740992. Proof. reflexivity. Qed.
Lemma n52 : (2 ^ 52 = 4503599627370496)%N. Proof. reflexivity. Qed.
Lemma n53 : (2 ^ 53 = 9007199254740992)%N. Proof. reflexivity. Qed.

(** A fraction less than half a unit away from a double (a quarter, below a
    power of two) is rounded to it. *)
Lemma nearest_double_in : forall neg n d m e,
  0 < n -> 0 < d -> 0 < m -> valid_double (DFin neg (Z.to_N m) e) = true ->
  let x := n * 2 ^ up (- e) in let y := d * 2 ^ up e in
  y * (2 * m - 1) < 2 * x < y * (2 * m + 1) -> (m = 2 ^ 52 -> -1074 < e -> y * (4 * m - 1) < 4 * x) ->
  nearest_double neg n d = DFin neg (Z.to_N m) e.
Proof.
  intros neg n d m e N D M V x y H H4.
  assert (SC := fun j J => scaled_pow n d e j J D). rewrite scaled_up in SC. cbn [fst snd] in SC. fold x y in SC.
  assert (PY : 0 < y) by (apply Z.mul_pos_pos; [exact D|apply pow2_up_pos]).
  assert (VV : (m < 2 ^ 52 /\ e = -1074) \/ (2 ^ 52 <= m < 2 ^ 53 /\ -1074 <= e <= 971)).
  { cbn [valid_double] in V. rewrite n52, n53 in V.
    rewrite z52. rewrite z53.
    destruct (Z.to_N m <? 4503599627370496)%N eqn:E; lia. }
  rewrite nearest_double_eq. destruct (n =? 0) eqn:E0; [lia|]. cbv zeta.
  destruct (top_spec n d N D) as [T1 T2].
  assert (X : Z.max (top n d - 52) (-1074) = e -> (let q := Z.max (top n d - 52) (-1074) in
    let '(m0, q0) := if mantissa n d q =? 2 ^ 53 then (2 ^ 52, q + 1) else (mantissa n d q, q) in
    if 971 <? q0 then DInf neg else DFin neg (Z.to_N m0) q0) = DFin neg (Z.to_N m) e).
  { intros ->. cbv zeta. unfold mantissa. rewrite scaled_up. cbn [fst snd]. fold x y.
    rewrite (round_div_unique x y m) by assumption.
    rewrite ?z52, ?z53 in *.
    destruct (m =? 9007199254740992) eqn:E; [lia|]. destruct (971 <? e) eqn:E2; [lia|reflexivity]. }
  assert (Up : ~ pow_le n d (e + 53)).
  { intros P. apply SC in P; [|lia]. rewrite ?z52, ?z53 in *. nia. }
  assert (TU : top n d <= e + 52).
  { destruct (Z_le_gt_dec (top n d) (e + 52)) as [L|G]; [exact L|]. exfalso. apply Up.
    apply (pow_le_mono n d (top n d)); [exact D|lia|exact T1]. }
  destruct VV as [[V1 V2]|[V1 V2]].
  - apply X. lia.
  - destruct (Z_le_gt_dec (y * 2 ^ 52) x) as [L|G].
    + apply X. apply SC in L; [|lia].
      assert (e + 52 <= top n d); [|lia]. destruct (Z_le_gt_dec (e + 52) (top n d)) as [L'|G]; [exact L'|]. exfalso. apply T2.
      apply (pow_le_mono n d (e + 52)); [exact D|lia|exact L].
    + assert (m = 2 ^ 52) as Em.
      { rewrite ?z52, ?z53 in *. nia. }
      destruct (Z.eq_dec e (-1074)) as [->|Ne]; [apply X; lia|]. specialize (H4 Em ltac:(lia)).
      assert (T : top n d = e + 51).
      { apply top_unique; [exact N|exact D| |].
        - apply SC; [lia|]. rewrite Em in H4. rewrite z51. rewrite z52 in H4. lia.
        - intros P. replace (e + 51 + 1) with (e + 52) in P by lia. apply SC in P; [|lia]. lia. }
      rewrite T. replace (Z.max (e + 51 - 52) (-1074)) with (e - 1) by lia.
      assert (Mx : mantissa n d (e - 1) = 2 ^ 53).
      { unfold mantissa. rewrite scaled_up. cbn [fst snd].
        assert (EQ : n * 2 ^ up (- (e - 1)) * y = 2 * x * (d * 2 ^ up (e - 1))).
        { unfold x, y. assert (E2 : 2 ^ up (- (e - 1)) * 2 ^ up e = 2 * 2 ^ up (- e) * 2 ^ up (e - 1)).
          { replace (2 * 2 ^ up (- e)) with (2 ^ (1 + up (- e))) by (rewrite Z.pow_add_r by (unfold up; lia); reflexivity).
            rewrite <- !Z.pow_add_r by (unfold up; lia). f_equal. unfold up. lia. }
          set (a := 2 ^ up (- (e - 1))) in *. set (b := 2 ^ up e) in *. set (f := 2 ^ up (- e)) in *. set (g := 2 ^ up (e - 1)) in *.
          clearbody a b f g. replace (n * a * (d * b)) with (n * d * (a * b)) by ring. rewrite E2. ring. }
        assert (PD : 0 < d * 2 ^ up (e - 1)) by (apply Z.mul_pos_pos; [exact D|apply pow2_up_pos]).
        set (X1 := n * 2 ^ up (- (e - 1))) in *. set (Y1 := d * 2 ^ up (e - 1)) in *. clearbody X1 Y1. clearbody x y.
        apply round_div_unique; [exact PD|]. rewrite Em in *.
        rewrite z52 in *. rewrite z53.
        assert (E4 : y * (2 * X1) = 4 * x * Y1) by (transitivity (2 * (X1 * y)); [ring|rewrite EQ; ring]).
        clear X SC T1 T2 Up TU T V E0 H EQ. split; (apply (Z.mul_lt_mono_pos_l y); [lia|]); rewrite E4.
        - replace (y * (Y1 * (2 * 9007199254740992 - 1))) with (y * (2 * 9007199254740992 - 1) * Y1) by ring.
          apply Z.mul_lt_mono_pos_r; lia.
        - replace (y * (Y1 * (2 * 9007199254740992 + 1))) with (y * (2 * 9007199254740992 + 1) * Y1) by ring.
          apply Z.mul_lt_mono_pos_r; lia. }
      rewrite Mx, Z.eqb_refl. replace (e - 1 + 1) with e by lia. rewrite Em.
      destruct (971 <? e) eqn:E2; [lia|reflexivity].
Qed.
