(** * Proofs that a printed float is read back *)
From Coq Require Import ZifyBool ZifyN ZifyNat DecimalString.
From Verif Require Import Base PyNum PyStr PyFloat Ast Spec_Num Spec_Grammar Spec_Syntax Str_proofs Text_proofs
  Token_proofs Float_proofs Nearest_proofs.
Open Scope string_scope.

(** ** Digits *)
Lemma digits_value_app : forall a b acc, digits_value acc (a ++ b) = digits_value (digits_value acc a) b.
Proof. induction a as [|c a IH]; cbn [digits_value append]; intros b acc; [reflexivity|]. apply IH. Qed.
Lemma digits_value_zeros : forall n acc, digits_value acc (repeat_str n "0") = (acc * 10 ^ Z.of_nat n)%Z.
Proof.
  induction n as [|n IH]; intros acc; [simpl; lia|]. cbn [repeat_str append digits_value]. rewrite IH.
  change (Z.of_N (N_of_ascii "0")) with 48%Z. rewrite Nat2Z.inj_succ, Z.pow_succ_r by lia. ring.
Qed.
Lemma str_of_Z_decimal : forall n, (0 <= n)%Z -> decimal (str_of_Z n) n.
Proof.
  intros n H. unfold str_of_Z. destruct n as [|p|p]; [|..|lia].
  - split; [discriminate|]. split; [reflexivity|]. exists (Decimal.D0 Decimal.Nil). split; reflexivity.
  - cbn [Z.to_int NilZero.string_of_int].
    assert (Hp : Pos.to_uint p <> Decimal.Nil) by apply DecimalPos.Unsigned.to_uint_nonnil.
    rewrite nilzero_uint by exact Hp. split; [|split; [apply uint_digits|]].
    + destruct (Pos.to_uint p); [congruence|discriminate..].
    + exists (Pos.to_uint p). split; [apply NilEmpty.usu|]. symmetry. exact (DecimalZ.of_to (Zpos p)).
Qed.
Lemma strip_zeros_split : forall s, exists z, s = strip_zeros s ++ repeat_str z "0".
Proof.
  induction s as [|c s [z IH]]; [exists O; reflexivity|]. cbn [strip_zeros].
  destruct (strip_zeros s) as [|d r] eqn:E.
  - destruct (Ascii.eqb c "0") eqn:C.
    + apply Ascii.eqb_eq in C as ->. exists (S z). simpl. rewrite IH. reflexivity.
    + exists z. simpl. rewrite IH. reflexivity.
  - exists z. simpl. rewrite IH at 1. reflexivity.
Qed.
Lemma substring_split : forall s k, (k <= String.length s)%nat ->
  substring 0 k s ++ substring k (String.length s - k) s = s.
Proof.
  induction s as [|c s IH]; intros k H; [destruct k; [reflexivity|simpl in H; lia]|].
  destruct k as [|k]; simpl in *.
  - f_equal. assert (H0 := IH O ltac:(lia)). rewrite Nat.sub_0_r in H0. destruct s; exact H0.
  - f_equal. apply IH. lia.
Qed.
Lemma substring_length : forall s n k, (n + k <= String.length s)%nat -> String.length (substring n k s) = k.
Proof.
  induction s as [|c s IH]; intros n k H; [destruct n, k; simpl in *; lia|].
  destruct n as [|n], k as [|k]; simpl in *; try reflexivity.
  - f_equal. apply (IH O k). lia.
  - apply (IH n O). lia.
  - apply (IH n (S k)). lia.
Qed.

(** ** The text of [n' * 10^x], without the sign *)
Definition shows (s : string) (n x : Z) : Prop :=
  exists ds fs point expo y,
    decimal (ds ++ fs) n
    /\ (point = "" /\ fs = "" \/ point = ".")
    /\ (expo = "" /\ y = 0%Z
        \/ exists e neg' sg' xs u, (e = "e" \/ e = "E") /\ signs neg' sg' /\ decimal xs u
             /\ expo = e ++ sg' ++ xs /\ y = if neg' then (- u)%Z else u)
    /\ (point <> "" \/ expo <> "")
    /\ s = ds ++ point ++ fs ++ expo
    /\ x = (y - Z.of_nat (String.length fs))%Z.

Lemma decimal_pad : forall k xs u, decimal xs u -> decimal (repeat_str k "0" ++ xs) u.
Proof.
  intros k xs u H. apply decimal_iff in H as (H1 & H2 & ->). apply decimal_iff. split; [|split].
  - destruct k; [exact H1|discriminate].
  - rewrite all_chars_app, H2, (all_chars_repeat is_digit k "0" eq_refl). reflexivity.
  - rewrite digits_value_app, digits_value_zeros. reflexivity.
Qed.

Lemma format_repr_value : forall n e, (0 < n)%Z -> exists n' x,
  (0 <= n')%Z /\ shows (format_repr n e) n' x /\ (forall neg, decimal_double neg n' x = decimal_double neg n e)
  /\ exists v y z, (0 <= y)%Z /\ (0 <= z)%Z /\ n = (v * 10 ^ y)%Z /\ n' = (v * 10 ^ z)%Z /\ (e + y = x + z)%Z.
Proof.
  intros n e N. unfold format_repr. cbv zeta. destruct (proj1 (decimal_iff _ _) (str_of_Z_decimal n ltac:(lia))) as (A1 & A2 & A3).
  destruct (strip_zeros_split (str_of_Z n)) as [z E].
  set (all := str_of_Z n) in *. clearbody all. set (st := strip_zeros all) in *. clearbody st.
  assert (SN : st <> "").
  { intros ->. simpl in E. rewrite A3, E, digits_value_zeros in N. lia. }
  destruct st as [|c0 st0]; [congruence|]. cbv iota. set (st := String c0 st0) in *. clearbody st. clear c0 st0.
  rewrite E in A2. rewrite all_chars_app in A2. apply andb_true_iff in A2 as [A2 _].
  set (V := digits_value 0 st). assert (VN : (0 <= V)%Z) by (apply digits_value_nonneg; [exact A2|lia]).
  assert (NV : n = (V * 10 ^ Z.of_nat z)%Z) by (rewrite A3, E, digits_value_app, digits_value_zeros; reflexivity).
  assert (LA : String.length all = (String.length st + z)%nat) by (rewrite E, string_length_app, repeat_str_length; reflexivity).
  set (p := (Z.of_nat (String.length all) + e)%Z). set (k := String.length st).
  assert (K1 : (0 < k)%nat) by (unfold k; destruct st; [congruence|simpl; lia]).
  assert (DV : forall neg, decimal_double neg V (p - Z.of_nat k) = decimal_double neg n e).
  { intros neg. rewrite NV, decimal_double_shift by lia. f_equal. unfold p, k. lia. }
  assert (VV : exists v y w, (0 <= y)%Z /\ (0 <= w)%Z /\ n = (v * 10 ^ y)%Z /\ V = (v * 10 ^ w)%Z /\ (e + y = p - Z.of_nat k + w)%Z).
  { exists V, (Z.of_nat z), 0%Z. change (10 ^ 0)%Z with 1%Z. unfold p, k. repeat split; try lia. }
  assert (DS : decimal st V) by (apply decimal_iff; auto).
  destruct ((-4 <? p) && (p <=? 16))%Z eqn:C.
  - destruct (p <=? 0)%Z eqn:C1.
    + (* 0.00ddd *)
      exists V, (p - Z.of_nat k)%Z. split; [exact VN|]. split; [|split; [exact DV|exact VV]].
      exists "0", (repeat_str (Z.to_nat (- p)) "0" ++ st), ".", "", 0%Z. split; [|split; [|split; [|split; [|split]]]].
      * apply (decimal_pad 1), decimal_pad, DS.
      * right. reflexivity.
      * left. auto.
      * left. discriminate.
      * rewrite string_app_nil. reflexivity.
      * rewrite string_length_app, repeat_str_length. fold k. lia.
    + destruct (Z.of_nat k <=? p)%Z eqn:C2.
      * (* ddd00.0 *)
        exists (V * 10 ^ (p - Z.of_nat k + 1))%Z, (-1)%Z. split; [|split; [|split]].
        { assert (0 <= 10 ^ (p - Z.of_nat k + 1))%Z by (apply Z.pow_nonneg; lia). nia. }
        { exists (st ++ repeat_str (Z.to_nat p - k) "0"), "0", ".", "", 0%Z. split; [|split; [|split; [|split; [|split]]]].
          - apply decimal_iff. split; [|split].
            + destruct st; [congruence|discriminate].
            + rewrite !all_chars_app, A2, (all_chars_repeat is_digit _ "0" eq_refl). reflexivity.
            + rewrite !digits_value_app, digits_value_zeros. fold V. change "0" with (repeat_str 1 "0").
              rewrite digits_value_zeros, <- Z.mul_assoc, <- Z.pow_add_r by lia. f_equal. f_equal. lia.
          - right. reflexivity.
          - left. auto.
          - left. discriminate.
          - rewrite <- !string_app_assoc. reflexivity.
          - reflexivity. }
        { intros neg. rewrite decimal_double_shift by lia. rewrite <- DV. f_equal. lia. }
        { exists V, (Z.of_nat z), (p - Z.of_nat k + 1)%Z. unfold p, k in *. repeat split; try lia. }
      * (* dd.ddd *)
        exists V, (p - Z.of_nat k)%Z. split; [exact VN|]. split; [|split; [exact DV|exact VV]].
        assert (SS := substring_split st (Z.to_nat p) ltac:(unfold k in *; lia)). fold k in SS.
        exists (substring 0 (Z.to_nat p) st), (substring (Z.to_nat p) (k - Z.to_nat p) st), ".", "", 0%Z.
        split; [|split; [|split; [|split; [|split]]]].
        -- rewrite SS. exact DS.
        -- right. reflexivity.
        -- left. auto.
        -- left. discriminate.
        -- rewrite string_app_nil. reflexivity.
        -- rewrite substring_length by (unfold k in *; lia). lia.
  - (* an exponent *)
    exists V, (p - Z.of_nat k)%Z. split; [exact VN|]. split; [|split; [exact DV|exact VV]].
    set (x := (p - 1)%Z). set (xs := str_of_Z (Z.abs x)).
    assert (SS := substring_split st 1 ltac:(unfold k in *; lia)). fold k in SS.
    assert (EX : exists e' neg' sg' xs' u, (e' = "e" \/ e' = "E") /\ signs neg' sg' /\ decimal xs' u
             /\ "e" ++ (if (x <? 0)%Z then "-" else "+") ++ repeat_str (2 - String.length xs) "0" ++ xs = e' ++ sg' ++ xs'
             /\ x = if neg' then (- u)%Z else u).
    { exists "e", (x <? 0)%Z, (if (x <? 0)%Z then "-" else "+"), (repeat_str (2 - String.length xs) "0" ++ xs), (Z.abs x).
      split; [left; reflexivity|]. split; [destruct (x <? 0)%Z; simpl; auto|]. split; [apply decimal_pad, str_of_Z_decimal; lia|].
      split; [reflexivity|]. destruct (x <? 0)%Z eqn:X; lia. }
    destruct (1 <? k)%nat eqn:K2.
    + exists (substring 0 1 st), (substring 1 (k - 1) st), ".",
        ("e" ++ (if (x <? 0)%Z then "-" else "+") ++ repeat_str (2 - String.length xs) "0" ++ xs), x.
      split; [|split; [|split; [|split; [|split]]]].
      * rewrite SS. exact DS.
      * right. reflexivity.
      * right. exact EX.
      * left. discriminate.
      * rewrite <- string_app_assoc. reflexivity.
      * rewrite substring_length by (unfold k in *; lia). unfold x. lia.
    + assert (k = 1%nat) as Ek by lia. exists st, "", "",
        ("e" ++ (if (x <? 0)%Z then "-" else "+") ++ repeat_str (2 - String.length xs) "0" ++ xs), x.
      split; [|split; [|split; [|split; [|split]]]].
      * rewrite string_app_nil. exact DS.
      * left. auto.
      * right. exact EX.
      * right. discriminate.
      * rewrite Ek in SS. replace (substring 1 (1 - 1) st) with "" in SS.
        { rewrite string_app_nil in SS. rewrite SS. reflexivity. }
        { destruct st as [|c [|c' st]]; reflexivity. }
      * simpl. unfold x. lia.
Qed.

Lemma format_repr_shows : forall n e, (0 < n)%Z -> exists n' x,
  (0 <= n')%Z /\ shows (format_repr n e) n' x /\ forall neg, decimal_double neg n' x = decimal_double neg n e.
Proof. intros n e N. destruct (format_repr_value n e N) as (n' & x & A & B & C & _). eauto. Qed.

(** ** Seventeen digits suffice *)
Open Scope Z_scope.
Lemma same_double_eq : forall a b, same_double a b = true -> a = b.
Proof.
  intros [s m e|s] [t n f|t] H; simpl in H; try discriminate.
  - apply andb_true_iff in H as [H H3]. apply andb_true_iff in H as [H1 H2].
    apply Bool.eqb_prop in H1 as ->. apply N.eqb_eq in H2 as ->. apply Z.eqb_eq in H3 as ->. reflexivity.
  - apply Bool.eqb_prop in H as ->. reflexivity.
Qed.
Lemma same_double_refl : forall a, same_double a a = true.
Proof. intros [s m e|s]; simpl; rewrite ?Bool.eqb_reflx, ?N.eqb_refl, ?Z.eqb_refl; reflexivity. Qed.

Lemma lt_pow10_up : forall a b k, lt_pow10 a b k = (a * 10 ^ up (- k) <? b * 10 ^ up k).
Proof.
  intros a b k. unfold lt_pow10, up. destruct (0 <=? k) eqn:K.
  - rewrite Z.max_l, Z.max_r by lia. change (10 ^ 0) with 1. rewrite Z.mul_1_r. reflexivity.
  - rewrite Z.max_r, Z.max_l by lia. change (10 ^ 0) with 1. rewrite Z.mul_1_r. reflexivity.
Qed.

(** The estimate of the number of digits is close enough for every exponent
    of a double. *)
Definition estimate (l : Z) : Z := (l - 1) * 30103 / 100000.
Definition estimate_ok (l : Z) : bool :=
  (10 ^ up (estimate l - 2) * 2 ^ up (- l) <=? 2 ^ up l * 10 ^ up (- (estimate l - 2)))
  && (2 ^ up (l + 1) * 10 ^ up (- (estimate l + 3)) <=? 10 ^ up (estimate l + 3) * 2 ^ up (- (l + 1))).
Lemma estimates : forallb (fun i => estimate_ok (Z.of_nat i - 1074)) (seq 0 2098) = true.
Proof. vm_compute. reflexivity. Qed.
Lemma estimate_fits : forall l, -1074 <= l <= 1023 -> estimate_ok l = true.
Proof.
  intros l H. assert (E := proj1 (forallb_forall _ _) estimates (Z.to_nat (l + 1074))).
  cbv beta in E. replace (Z.of_nat (Z.to_nat (l + 1074)) - 1074) with l in E by lia. apply E. apply in_seq. lia.
Qed.

Section Fin.
Variables (m : N) (e : Z).
Hypothesis Hm : (0 < m)%N.
Hypothesis Hv : valid_double (DFin false m e) = true.
Let M := Z.of_N m.
Let a := M * 2 ^ up e.
Let b := 2 ^ up (- e).

Lemma mantissa_small : 0 < M < 9007199254740992 /\ -1074 <= e <= 971.
Proof.
  unfold M. cbn [valid_double] in Hv. rewrite n52, n53 in Hv.
  destruct (m <? 4503599627370496)%N eqn:E; lia.
Qed.
Lemma logs : Z.log2 a - Z.log2 b = Z.log2 M + e.
Proof.
  destruct mantissa_small as [H _]. unfold a, b. rewrite Z.log2_mul_pow2, Z.log2_pow2 by (unfold up; lia). unfold up. lia.
Qed.
Lemma b_pos : 0 < b.
Proof. apply pow2_up_pos. Qed.
Lemma a_pos : 0 < a.
Proof. destruct mantissa_small as [H _]. unfold a. apply Z.mul_pos_pos; [lia|apply pow2_up_pos]. Qed.
Lemma between : forall l, l = Z.log2 M + e ->
  b * 2 ^ up l <= a * 2 ^ up (- l) /\ a * 2 ^ up (- (l + 1)) < b * 2 ^ up (l + 1).
Proof.
  intros l E. destruct mantissa_small as [H _]. destruct (Z.log2_spec M ltac:(lia)) as [L1 L2]. assert (L0 := Z.log2_nonneg M).
  unfold a, b. split.
  - rewrite <- Z.pow_add_r, <- Z.mul_assoc, <- Z.pow_add_r by (unfold up; lia).
    replace (up (- e) + up l) with (Z.log2 M + (up e + up (- l))) by (unfold up; lia).
    rewrite Z.pow_add_r by (unfold up; lia). apply Z.mul_le_mono_nonneg_r; [apply Z.pow_nonneg; lia|exact L1].
  - rewrite <- Z.pow_add_r, <- Z.mul_assoc, <- Z.pow_add_r by (unfold up; lia).
    replace (up (- e) + up (l + 1)) with (Z.succ (Z.log2 M) + (up e + up (- (l + 1)))) by (unfold up; lia).
    rewrite (Z.pow_add_r 2 (Z.succ (Z.log2 M))) by (unfold up; lia).
    apply Z.mul_lt_mono_pos_r; [apply Z.pow_pos_nonneg; unfold up; lia|exact L2].
Qed.
Lemma log_range : -1074 <= Z.log2 M + e <= 1023.
Proof.
  destruct mantissa_small as [H1 H2]. assert (L0 := Z.log2_nonneg M).
  assert (Z.log2 M <= 52); [|lia]. apply Z.lt_succ_r. apply Z.log2_lt_pow2; [lia|]. change (2 ^ Z.succ 52) with 9007199254740992. lia.
Qed.

Lemma point_position_spec : forall p, p = point_position a b -> lt_pow10 a b (p - 1) = false /\ lt_pow10 a b p = true.
Proof.
  intros p E. unfold point_position in E. rewrite logs in E. fold (estimate (Z.log2 M + e)) in E.
  assert (F := estimate_fits _ log_range). destruct (between _ eq_refl) as [B1 B2].
  set (l := Z.log2 M + e) in *. set (x := estimate l) in *.
  unfold estimate_ok in F. fold x in F. apply andb_true_iff in F as [F1 F2]. apply Z.leb_le in F1, F2.
  assert (PA := a_pos). assert (PB := b_pos).
  assert (P2 := pow2_up_pos). assert (P10 := pow10_pos).
  assert (Low : lt_pow10 a b (x - 2) = false).
  { rewrite lt_pow10_up. apply Z.ltb_ge.
    assert (Q1 := P2 l). assert (Q2 := P2 (- l)). assert (Q3 := P10 (x - 2)). assert (Q4 := P10 (- (x - 2))).
    set (c := 2 ^ up l) in *. set (d := 2 ^ up (- l)) in *. set (f := 10 ^ up (x - 2)) in *. set (g := 10 ^ up (- (x - 2))) in *.
    clearbody c d f g a b. clear - B1 F1 PA PB Q1 Q2 Q3 Q4.
    apply (Z.mul_le_mono_pos_r _ _ d Q2).
    transitivity (b * (c * g)); [replace (b * f * d) with (b * (f * d)) by ring; apply Z.mul_le_mono_nonneg_l; lia|].
    replace (b * (c * g)) with (b * c * g) by ring. replace (a * g * d) with (a * d * g) by ring. apply Z.mul_le_mono_nonneg_r; lia. }
  assert (High : lt_pow10 a b (x + 3) = true).
  { rewrite lt_pow10_up. apply Z.ltb_lt.
    assert (Q1 := P2 (l + 1)). assert (Q2 := P2 (- (l + 1))). assert (Q3 := P10 (x + 3)). assert (Q4 := P10 (- (x + 3))).
    set (c := 2 ^ up (l + 1)) in *. set (d := 2 ^ up (- (l + 1))) in *. set (f := 10 ^ up (x + 3)) in *. set (g := 10 ^ up (- (x + 3))) in *.
    clearbody c d f g a b. clear - B2 F2 PA PB Q1 Q2 Q3 Q4.
    apply (Z.mul_lt_mono_pos_r d _ _ Q2).
    apply (Z.lt_le_trans _ (b * c * g)); [replace (a * g * d) with (a * d * g) by ring; apply Z.mul_lt_mono_pos_r; lia|].
    replace (b * c * g) with (b * (c * g)) by ring. replace (b * f * d) with (b * (f * d)) by ring. apply Z.mul_le_mono_nonneg_l; lia. }
  destruct (lt_pow10 a b (x - 1)) eqn:T1.
  { subst p. replace (x - 1 - 1) with (x - 2) by lia. auto. }
  destruct (lt_pow10 a b x) eqn:T2; [subst p; auto|].
  destruct (lt_pow10 a b (x + 1)) eqn:T3.
  { subst p. replace (x + 1 - 1) with x by lia. auto. }
  destruct (lt_pow10 a b (x + 2)) eqn:T4; subst p.
  - replace (x + 2 - 1) with (x + 1) by lia. auto.
  - replace (x + 3 - 1) with (x + 2) by lia. auto.
Qed.

(** The number rounded to seventeen digits is close enough. *)
Lemma seventeen : forall p, lt_pow10 a b (p - 1) = false ->
  let x := p - 17 in
  decimal_double false (round_div (a * 10 ^ up (- x)) (b * 10 ^ up x)) x = DFin false m e.
Proof.
  intros p L x. rewrite lt_pow10_up in L. apply Z.ltb_ge in L. assert (P10 := pow10_pos).
  assert (PA := a_pos). assert (PB := b_pos). destruct mantissa_small as [SM SE].
  assert (W : b * (10 ^ 16 * 10 ^ up x) <= a * 10 ^ up (- x)).
  { assert (E : 10 ^ up (p - 1) * 10 ^ up (- x) = 10 ^ 16 * 10 ^ up x * 10 ^ up (- (p - 1))).
    { rewrite <- !Z.pow_add_r by (unfold up; lia). f_equal. unfold up, x. lia. }
    assert (Q1 := P10 (p - 1)). assert (Q2 := P10 (- (p - 1))). assert (Q3 := P10 x). assert (Q4 := P10 (- x)).
    set (c := 10 ^ up (p - 1)) in *. set (d := 10 ^ up (- (p - 1))) in *. set (f := 10 ^ up x) in *. set (g := 10 ^ up (- x)) in *.
    set (t := 10 ^ 16) in *. clearbody c d f g t a b. clear - L E PA PB Q1 Q2 Q3 Q4.
    apply (Z.mul_le_mono_pos_r _ _ d Q2). replace (b * (t * f) * d) with (b * (t * f * d)) by ring. rewrite <- E.
    replace (b * (c * g)) with (b * c * g) by ring. replace (a * g * d) with (a * d * g) by ring. apply Z.mul_le_mono_nonneg_r; lia. }
  assert (RB := round_div_bounds (a * 10 ^ up (- x)) (b * 10 ^ up x) ltac:(apply Z.mul_pos_pos; auto)).
  set (r := round_div _ _) in *. clearbody r. change (10 ^ 16) with 10000000000000000 in W.
  rewrite decimal_double_up.
  assert (Hv' : valid_double (DFin false (Z.to_N M) e) = true) by (unfold M; rewrite N2Z.id; exact Hv).
  replace m with (Z.to_N M) by (unfold M; apply N2Z.id).
  assert (Q1 := P10 x). assert (Q2 := P10 (- x)). assert (Q3 := pow2_up_pos e).
  set (u := 10 ^ up x) in *. set (v := 10 ^ up (- x)) in *.
  assert (Ab : a * v = M * (v * 2 ^ up e)) by (unfold a; ring).
  rewrite Ab in RB, W. set (y := v * 2 ^ up e) in *. assert (PY : 0 < y) by (apply Z.mul_pos_pos; assumption).
  assert (PW : 0 < b * u) by (apply Z.mul_pos_pos; assumption).
  assert (Sm : b * u < y).
  { assert (M * y <= 9007199254740992 * y) by (apply Z.mul_le_mono_nonneg_r; lia). lia. }
  assert (Rx : r * u * 2 ^ up (- e) = b * u * r) by (unfold b; ring).
  assert (Up : 2 * (b * u * r) < y * (2 * M + 1)).
  { assert (EQ : b * u * (2 * r - 1) = 2 * (b * u * r) - b * u) by ring. lia. }
  assert (Lo : y * (2 * M - 1) < 2 * (b * u * r)).
  { assert (EQ : b * u * (2 * r + 1) = 2 * (b * u * r) + b * u) by ring. lia. }
  apply nearest_double_in; [|exact Q2|lia|exact Hv'| |].
  - apply Z.mul_pos_pos; [|exact Q1]. assert (0 < b * u * r) by nia. nia.
  - fold y. rewrite Rx. split; assumption.
  - intros EM _. fold y. rewrite Rx. rewrite z52 in EM.
    assert (EQ : b * u * (2 * r + 1) = 2 * (b * u * r) + b * u) by ring.
    rewrite EM in *. lia.
Qed.

Lemma try_seventeen : try_digits (DFin false m e) a b (point_position a b) 17 <> None.
Proof.
  destruct (point_position_spec _ eq_refl) as [L _]. assert (S17 := seventeen _ L). cbv zeta in S17.
  set (p := point_position a b) in *. unfold try_digits. cbv zeta.
  assert (E1 : (if 0 <=? p - 17 then a else a * 10 ^ (- (p - 17))) = a * 10 ^ up (- (p - 17))).
  { unfold up. destruct (0 <=? p - 17) eqn:E; [rewrite Z.max_l by lia; change (10 ^ 0) with 1; lia|rewrite Z.max_r by lia; reflexivity]. }
  assert (E2 : (if 0 <=? p - 17 then b * 10 ^ (p - 17) else b) = b * 10 ^ up (p - 17)).
  { unfold up. destruct (0 <=? p - 17) eqn:E; [rewrite Z.max_r by lia; reflexivity|rewrite Z.max_l by lia; change (10 ^ 0) with 1; lia]. }
  rewrite E1, E2, S17, same_double_refl. discriminate.
Qed.

Lemma try_digits_good : forall d x y p k n f, try_digits d x y p k = Some (n, f) -> decimal_double false n f = d.
Proof.
  intros d x y p k n f. unfold try_digits. cbv zeta.
  set (a' := if 0 <=? p - k then x else _). set (b' := if 0 <=? p - k then _ else y).
  destruct (same_double (decimal_double false (round_div a' b') (p - k)) d) eqn:G1.
  { intros H. inversion H; subst. apply same_double_eq, G1. }
  destruct (same_double (decimal_double false (a' / b') (p - k)) d) eqn:G2.
  { intros H. inversion H; subst. apply same_double_eq, G2. }
  destruct (same_double (decimal_double false (a' / b' + 1) (p - k)) d) eqn:G3; [|discriminate].
  intros H. inversion H; subst. apply same_double_eq, G3.
Qed.

Lemma shortest_good : forall f k n x, (1 <= k)%Z -> (k + Z.of_nat f = 18)%Z -> (1 <= f)%nat ->
  shortest f (DFin false m e) a b (point_position a b) k = (n, x) -> decimal_double false n x = DFin false m e.
Proof.
  induction f as [|f IH]; intros k n x K F F1 H; [lia|]. cbn [shortest] in H.
  destruct (try_digits _ a b _ k) as [[n' x']|] eqn:T.
  - inversion H; subst. apply (try_digits_good _ _ _ _ _ _ _ T).
  - destruct (Nat.eq_dec f 0) as [->|N0].
    + replace k with 17 in T by lia. destruct (try_seventeen T).
    + apply (IH (k + 1)%Z); [lia|lia|lia|exact H].
Qed.
End Fin.

(** ** A printed float is read back *)
Open Scope string_scope.
Lemma float_here_shows : forall neg n x d s r, shows s n x ->
  not_next (fun c => letter_digit_underscore c || Ascii.eqb c ".") r -> decimal_double neg n x = d ->
  float_here (mkfloat d (float_repr d)) ((if neg then "-" else "") ++ s ++ r) r.
Proof.
  intros neg n x d s r (ds & fs & point & expo & y & D & P & X & PX & -> & ->) R E.
  exists neg, (if neg then "-" else ""), ds, fs, n, point, expo, y.
  split; [destruct neg; simpl; auto|]. split; [exact D|]. split; [exact P|]. split; [exact X|]. split; [exact PX|].
  split; [rewrite <- !string_app_assoc; reflexivity|]. split; [exact R|]. unfold py_float. rewrite E. reflexivity.
Qed.

Lemma float_repr_reads : forall d r, valid_double d = true -> finite d ->
  not_next (fun c => letter_digit_underscore c || Ascii.eqb c ".") r ->
  float_here (mkfloat d (float_repr d)) (float_repr d ++ r) r.
Proof.
  intros [neg m e|] r V F R; [|destruct F]. 
  assert (V' : valid_double (DFin false m e) = true) by exact V.
  assert (X : exists s n x, float_repr (DFin neg m e) = (if neg then "-" else "") ++ s /\ shows s n x
              /\ decimal_double neg n x = DFin neg m e).
  { cbn [float_repr]. destruct (m =? 0)%N eqn:Z0.
    - apply N.eqb_eq in Z0 as ->. exists "0.0", 0%Z, (-1)%Z. split; [reflexivity|]. split.
      + exists "0", "0", ".", "", 0%Z. split; [|split; [|split; [|split; [|split]]]]; auto.
        * apply decimal_iff. split; [discriminate|]. split; reflexivity.
        * left. discriminate.
      + apply Z.eqb_eq in V. subst e. reflexivity.
    - cbv zeta. set (a := if (0 <=? e)%Z then _ else Z.of_N m). set (b := if (0 <=? e)%Z then 1%Z else _).
      assert (Ea : a = (Z.of_N m * 2 ^ up e)%Z).
      { unfold a, up. destruct (0 <=? e)%Z eqn:E; [rewrite Z.max_r by lia; reflexivity|rewrite Z.max_l by lia].
        change (2 ^ 0)%Z with 1%Z. lia. }
      assert (Eb : b = (2 ^ up (- e))%Z).
      { unfold b, up. destruct (0 <=? e)%Z eqn:E; [rewrite Z.max_l by lia|rewrite Z.max_r by lia]; reflexivity. }
      destruct (shortest 17 (DFin false m e) a b (point_position a b) 1) as [n x] eqn:S.
      assert (N0 : (0 <= n)%Z).
      { assert (H := shortest_nonneg 17 (DFin false m e) a b (point_position a b) 1). rewrite S in H. apply H.
        - rewrite Ea. assert (0 < 2 ^ up e)%Z by apply pow2_up_pos. nia.
        - rewrite Eb. apply pow2_up_pos. }
      rewrite Ea, Eb in S. apply shortest_good in S; [|lia|exact V'|lia|reflexivity|lia].
      assert (N1 : (0 < n)%Z).
      { destruct (Z.eq_dec n 0) as [->|]; [|lia]. exfalso. rewrite decimal_double_up in S. simpl in S. inversion S. subst m. discriminate Z0. }
      destruct (format_repr_shows n x N1) as (n' & x' & _ & Sh & Eq).
      exists (format_repr n x), n', x'. split; [reflexivity|]. split; [exact Sh|].
      rewrite Eq. apply decimal_double_sign. exact S. }
  destruct X as (s & n & x & E & Sh & D). rewrite E at 2. rewrite <- string_app_assoc.
  apply (float_here_shows neg n x); assumption.
Qed.
