(** * Proofs: printed numbers can be read back *)
From Coq Require Import HexadecimalString DecimalString DecimalZ DecimalN HexadecimalN.
From Verif Require Import Base PyStr Spec_Text Lib_proofs Str_proofs.
Open Scope string_scope.
Open Scope Z_scope.

(** Decimal. *)
Fixpoint horner (d : Decimal.uint) (acc : Z) : Z :=
  match d with
  | Decimal.Nil => acc
  | Decimal.D0 l => horner l (10 * acc + 0)
  | Decimal.D1 l => horner l (10 * acc + 1)
  | Decimal.D2 l => horner l (10 * acc + 2)
  | Decimal.D3 l => horner l (10 * acc + 3)
  | Decimal.D4 l => horner l (10 * acc + 4)
  | Decimal.D5 l => horner l (10 * acc + 5)
  | Decimal.D6 l => horner l (10 * acc + 6)
  | Decimal.D7 l => horner l (10 * acc + 7)
  | Decimal.D8 l => horner l (10 * acc + 8)
  | Decimal.D9 l => horner l (10 * acc + 9)
  end.

Lemma read_horner : forall d acc,
  read_digits 10 acc (NilEmpty.string_of_uint d) = Some (horner d acc).
Proof. induction d; intros acc; [reflexivity|..]; exact (IHd _). Qed.

Lemma pos_horner : forall d p, Z.pos (Pos.of_uint_acc d p) = horner d (Z.pos p).
Proof.
  induction d; intros p; [reflexivity|..]; cbn [Pos.of_uint_acc horner]; rewrite IHd; f_equal; lia.
Qed.

Lemma N_horner : forall d, Z.of_N (N.of_uint d) = horner d 0.
Proof.
  unfold N.of_uint. induction d; [reflexivity|exact IHd|..]; cbn [Pos.of_uint horner Z.of_N];
    rewrite pos_horner; reflexivity.
Qed.

Lemma read_uint : forall d, d <> Decimal.Nil ->
  read_unsigned 10 (NilEmpty.string_of_uint d) = Some (Z.of_N (N.of_uint d)).
Proof.
  intros d H. rewrite N_horner, <- read_horner. destruct d; [congruence|..]; reflexivity.
Qed.

Lemma nilzero_uint : forall d, d <> Decimal.Nil -> NilZero.string_of_uint d = NilEmpty.string_of_uint d.
Proof. intros []; [congruence|..]; reflexivity. Qed.

Lemma read_str_of_Z : forall z, read_int (str_of_Z z) = Some z.
Proof.
  intros z. unfold str_of_Z. assert (E := DecimalZ.of_to z). destruct z as [|p|p]; [reflexivity|..]; simpl Z.to_int in *.
  - assert (Hp : Pos.to_uint p <> Decimal.Nil) by apply DecimalPos.Unsigned.to_uint_nonnil.
    cbn [NilZero.string_of_int]. rewrite nilzero_uint by exact Hp.
    transitivity (read_unsigned 10 (NilEmpty.string_of_uint (Pos.to_uint p))).
    + destruct (Pos.to_uint p); reflexivity.
    + rewrite read_uint by exact Hp. f_equal. exact E.
  - assert (Hp : Pos.to_uint p <> Decimal.Nil) by apply DecimalPos.Unsigned.to_uint_nonnil.
    cbn [NilZero.string_of_int]. rewrite nilzero_uint by exact Hp.
    cbn [read_int]. rewrite read_uint by exact Hp. cbn [option_map]. f_equal. exact E.
Qed.

(** Hexadecimal. *)
Fixpoint hhorner (d : Hexadecimal.uint) (acc : Z) : Z :=
  match d with
  | Hexadecimal.Nil => acc
  | Hexadecimal.D0 l => hhorner l (16 * acc + 0)
  | Hexadecimal.D1 l => hhorner l (16 * acc + 1)
  | Hexadecimal.D2 l => hhorner l (16 * acc + 2)
  | Hexadecimal.D3 l => hhorner l (16 * acc + 3)
  | Hexadecimal.D4 l => hhorner l (16 * acc + 4)
  | Hexadecimal.D5 l => hhorner l (16 * acc + 5)
  | Hexadecimal.D6 l => hhorner l (16 * acc + 6)
  | Hexadecimal.D7 l => hhorner l (16 * acc + 7)
  | Hexadecimal.D8 l => hhorner l (16 * acc + 8)
  | Hexadecimal.D9 l => hhorner l (16 * acc + 9)
  | Hexadecimal.Da l => hhorner l (16 * acc + 10)
  | Hexadecimal.Db l => hhorner l (16 * acc + 11)
  | Hexadecimal.Dc l => hhorner l (16 * acc + 12)
  | Hexadecimal.Dd l => hhorner l (16 * acc + 13)
  | Hexadecimal.De l => hhorner l (16 * acc + 14)
  | Hexadecimal.Df l => hhorner l (16 * acc + 15)
  end.

Lemma read_hhorner : forall d acc,
  read_digits 16 acc (upper (HexadecimalString.NilEmpty.string_of_uint d)) = Some (hhorner d acc).
Proof. induction d; intros acc; [reflexivity|..]; exact (IHd _). Qed.

Lemma pos_hhorner : forall d p, Z.pos (Pos.of_hex_uint_acc d p) = hhorner d (Z.pos p).
Proof.
  induction d; intros p; [reflexivity|..]; cbn [Pos.of_hex_uint_acc hhorner]; rewrite IHd; f_equal; lia.
Qed.

Lemma N_hhorner : forall d, Z.of_N (N.of_hex_uint d) = hhorner d 0.
Proof.
  unfold N.of_hex_uint. induction d; [reflexivity|exact IHd|..]; cbn [Pos.of_hex_uint hhorner Z.of_N];
    rewrite pos_hhorner; reflexivity.
Qed.

Lemma hex_nilzero : forall d, d <> Hexadecimal.Nil ->
  HexadecimalString.NilZero.string_of_uint d = HexadecimalString.NilEmpty.string_of_uint d.
Proof. intros []; [congruence|..]; reflexivity. Qed.

Lemma hex_nonnil : forall n, N.to_hex_uint n <> Hexadecimal.Nil.
Proof. intros [|p]; [discriminate|]. apply HexadecimalPos.Unsigned.to_uint_nonnil. Qed.

Lemma read_hex_digits : forall acc z, 0 <= z -> acc = 0 ->
  read_digits 16 acc (hex_digits z) = Some z.
Proof.
  intros acc z H ->. unfold hex_digits. rewrite hex_nilzero by apply hex_nonnil. rewrite read_hhorner.
  rewrite <- N_hhorner, HexadecimalN.Unsigned.of_to. f_equal. lia.
Qed.

Lemma read_zeros : forall base n s, 1 < base -> read_digits base 0 (repeat_str n "0" ++ s) = read_digits base 0 s.
Proof.
  intros base n s H. induction n as [|n IH]; [reflexivity|].
  transitivity (read_digits base 0 (String "0" (repeat_str n "0" ++ s))); [reflexivity|].
  cbn [read_digits]. replace (digit_value base "0") with (Some 0).
  - rewrite Z.mul_0_r. exact IH.
  - unfold digit_value. change (code "0") with 48. change ((48 <=? 48) && (48 <=? 57)) with true. cbv iota.
    replace (48 - 48 <? base) with true by lia. reflexivity.
Qed.

Lemma hex_digits_nonempty : forall z, hex_digits z <> "".
Proof.
  intros z H. unfold hex_digits in H. rewrite hex_nilzero in H by apply hex_nonnil.
  assert (N := hex_nonnil (Z.abs_N z)). destruct (N.to_hex_uint (Z.abs_N z)); [congruence|..]; discriminate.
Qed.

Lemma read_format_X : forall n z, 0 <= z -> read_hex (format_X n z) = Some z.
Proof.
  intros n z H. unfold format_X, read_hex, read_unsigned. destruct (Z.ltb_spec z 0); [lia|].
  assert (R := read_hex_digits 0 z H eq_refl).
  rewrite <- (read_zeros 16 (n - String.length (hex_digits z))) in R by lia.
  destruct (repeat_str (n - String.length (hex_digits z)) "0") eqn:E; [|exact R].
  destruct (hex_digits z) eqn:F; [exfalso; exact (hex_digits_nonempty z F)|exact R].
Qed.

Lemma repeat_str_length : forall n c, String.length (repeat_str n (String c "")) = n.
Proof. induction n as [|n IH]; intros c; simpl; [reflexivity|]. rewrite IH. reflexivity. Qed.

(** A number of at most [n] digits takes exactly [n]. *)
Lemma hhorner_bound : forall d acc, 0 <= acc ->
  acc * 16 ^ Z.of_nat (String.length (HexadecimalString.NilEmpty.string_of_uint d)) <= hhorner d acc.
Proof.
  induction d; intros acc H;
    [change (Z.of_nat (String.length _)) with 0; simpl; lia|..];
    cbn [hhorner HexadecimalString.NilEmpty.string_of_uint String.length];
    rewrite Nat2Z.inj_succ, Z.pow_succ_r by lia; (eapply Z.le_trans; [|apply IHd; lia]); nia.
Qed.

Lemma str_map_length : forall f s, String.length (str_map f s) = String.length s.
Proof. intros f s. induction s as [|c s IH]; simpl; [reflexivity|]. rewrite IH. reflexivity. Qed.

Lemma hex_digits_length : forall z n, 0 <= z < 16 ^ Z.of_nat n -> (0 < n)%nat ->
  (String.length (hex_digits z) <= n)%nat.
Proof.
  intros z n H Hn. unfold hex_digits, upper. rewrite str_map_length, hex_nilzero by apply hex_nonnil.
  destruct (Z.eq_dec z 0) as [->|Hz]; [simpl; lia|].
  assert (E : Z.of_N (N.of_hex_uint (N.to_hex_uint (Z.abs_N z))) = z).
  { rewrite HexadecimalN.Unsigned.of_to. lia. }
  rewrite N_hhorner in E.
  assert (Hd : exists q, Z.abs_N z = N.pos q) by (destruct z; simpl; eauto; lia).
  destruct Hd as (q & Hq). rewrite Hq in *. cbn [N.to_hex_uint] in *.
  assert (L : forall d acc k, 0 < acc -> hhorner d acc < 16 ^ Z.of_nat k ->
    (String.length (HexadecimalString.NilEmpty.string_of_uint d) < k)%nat).
  { intros d acc k Ha Hk. assert (B := hhorner_bound d acc ltac:(lia)).
    set (m := String.length _) in *. destruct (Nat.lt_ge_cases m k) as [|G]; [assumption|]. exfalso.
    assert (16 ^ Z.of_nat k <= 16 ^ Z.of_nat m) by (apply Z.pow_le_mono_r; lia). nia. }
  assert (D := HexadecimalPos.Unsigned.to_uint_nonzero q).
  assert (D2 := HexadecimalPos.Unsigned.to_uint_nonnil q).
  assert (NZ : forall l, Pos.to_hex_uint q <> Hexadecimal.D0 l).
  { intros l Hl. assert (U : Hexadecimal.unorm (Pos.to_hex_uint q) = Pos.to_hex_uint q).
    { assert (T := HexadecimalN.Unsigned.to_of (Pos.to_hex_uint q)).
      change (N.of_hex_uint (Pos.to_hex_uint q)) with (N.of_hex_uint (N.to_hex_uint (N.pos q))) in T.
      rewrite HexadecimalN.Unsigned.of_to in T. symmetry. exact T. }
    rewrite Hl in U. assert (V : forall d l', Hexadecimal.nzhead d <> Hexadecimal.D0 l').
    { clear. induction d; intros l'; simpl; try discriminate. apply IHd. }
    unfold Hexadecimal.unorm in U. specialize (V (Hexadecimal.D0 l) l).
    destruct (Hexadecimal.nzhead (Hexadecimal.D0 l)) eqn:Z0; try congruence.
    }
  destruct (Pos.to_hex_uint q) eqn:Q; [congruence|exfalso; eapply NZ; reflexivity|..];
    cbn [hhorner] in E; cbn [HexadecimalString.NilEmpty.string_of_uint String.length];
    match goal with E : hhorner ?d ?a = z |- _ => apply (L d a); lia end.
Qed.

Lemma format_X_length : forall n z, 0 <= z < 16 ^ Z.of_nat n -> (0 < n)%nat -> String.length (format_X n z) = n.
Proof.
  intros n z H Hn. unfold format_X. destruct (Z.ltb_spec z 0); [lia|].
  rewrite string_length_app, repeat_str_length. assert (L := hex_digits_length z n H Hn). lia.
Qed.

(** ** The texts have no superfluous zeros *)

Lemma digit_range : forall base c d, digit_value base c = Some d -> 0 <= d < base.
Proof.
  intros base c d H. unfold digit_value in H. set (n := code c) in *. clearbody n.
  match type of H with (if ?x <? base then _ else _) = _ => destruct (Z.ltb_spec x base) as [L|L]; [|discriminate]; injection H as <-; split; [|exact L] end.
  destruct ((48 <=? n) && (n <=? 57)) eqn:A; [lia|]. destruct ((65 <=? n) && (n <=? 90)) eqn:B; lia.
Qed.

Lemma digits_range : forall base s acc v, 1 < base -> 0 <= acc -> read_digits base acc s = Some v ->
  acc * base ^ Z.of_nat (String.length s) <= v < (acc + 1) * base ^ Z.of_nat (String.length s).
Proof.
  intros base s. induction s as [|c s IH]; intros acc v Hb Ha H.
  - cbn in H. injection H as <-. cbn [String.length]. change (base ^ Z.of_nat 0) with 1. lia.
  - cbn [read_digits] in H. destruct (digit_value base c) as [d|] eqn:D; [|discriminate]. apply digit_range in D.
    apply IH in H; [|exact Hb|nia]. cbn [String.length]. rewrite Nat2Z.inj_succ, Z.pow_succ_r by lia.
    set (p := base ^ Z.of_nat (String.length s)) in *. assert (0 < p) by (apply Z.pow_pos_nonneg; lia). nia.
Qed.

Lemma hex_digits_abs : forall z, hex_digits z = hex_digits (Z.abs z).
Proof. intros z. unfold hex_digits. f_equal. f_equal. f_equal. lia. Qed.

Lemma hex_digits_plain : forall z r, hex_digits z = "0" ++ r -> r = "".
Proof.
  intros z r E. rewrite hex_digits_abs in E. assert (R := read_hex_digits 0 (Z.abs z) ltac:(lia) eq_refl). rewrite E in R.
  change ("0" ++ r) with (repeat_str 1 "0" ++ r) in R. rewrite read_zeros in R by lia.
  destruct (digits_range 16 r 0 _ ltac:(lia) ltac:(lia) R) as (_ & B).
  destruct r as [|c r]; [reflexivity|]. exfalso.
  assert (L := hex_digits_length (Z.abs z) (String.length (String c r)) ltac:(lia) ltac:(cbn; lia)). rewrite E in L. cbn in L. lia.
Qed.

Lemma hexadecimal_format : forall n z, hexadecimal n z (format_X n z).
Proof.
  intros n z. assert (RD : forall k, read_hex (repeat_str k "0" ++ hex_digits z) = Some (Z.abs z)).
  { intros k. assert (R := read_hex_digits 0 (Z.abs z) ltac:(lia) eq_refl). rewrite <- hex_digits_abs in R.
    rewrite <- (read_zeros 16 k) in R by lia. unfold read_hex, read_unsigned.
    destruct (repeat_str k "0") eqn:E; [|exact R]. destruct (hex_digits z) eqn:F; [exfalso; exact (hex_digits_nonempty z F)|exact R]. }
  unfold hexadecimal, format_X. destruct (z <? 0).
  - exists (repeat_str (n - 1 - String.length (hex_digits z)) "0" ++ hex_digits z). split; [reflexivity|]. split; [apply RD|].
    rewrite !string_length_app, repeat_str_length. cbn [String.length]. split; [lia|]. intros L r E.
    replace (n - 1 - String.length (hex_digits z))%nat with 0%nat in E by lia. exact (hex_digits_plain z r E).
  - exists (repeat_str (n - String.length (hex_digits z)) "0" ++ hex_digits z). split; [reflexivity|]. split; [apply RD|].
    cbn [append]. rewrite !string_length_app, repeat_str_length. split; [lia|]. intros L r E.
    replace (n - String.length (hex_digits z))%nat with 0%nat in E by lia. exact (hex_digits_plain z r E).
Qed.

Lemma decimal_str_of_Z : forall z, decimal z (str_of_Z z).
Proof.
  intros z. split; [apply read_str_of_Z|].
  assert (P : forall p r, NilZero.string_of_uint (Pos.to_uint p) = ("0" ++ r)%string -> False).
  { intros p r E. assert (R := read_str_of_Z (Z.pos p)). unfold str_of_Z in R. cbn [Z.to_int NilZero.string_of_int] in R. rewrite E in R.
    assert (X : r = "").
    { assert (N : Z.to_int (Z.pos p) = Decimal.norm (Z.to_int (Z.pos p))).
      { rewrite <- (DecimalZ.to_of (Z.to_int (Z.pos p))), DecimalZ.of_to. reflexivity. }
      simpl in N. injection N as N. unfold Decimal.unorm in N.
      destruct (Pos.to_uint p) as [|u|u|u|u|u|u|u|u|u|u] eqn:Ep; try discriminate E.
      - injection E as <-. reflexivity.
      - destruct (Decimal.nzhead (Decimal.D0 u)) eqn:Nz; try discriminate N.
        + injection N as ->. injection E as <-. reflexivity.
        + exfalso. exact (DecimalFacts.nzhead_nonzero _ _ Nz). }
    subst r. vm_compute in R. discriminate. }
  intros sign r Hs E. unfold str_of_Z in E. destruct z as [|p|p]; destruct Hs as [->| ->]; cbn [append] in E; simpl in E.
  - injection E as <-. auto.
  - discriminate.
  - exfalso. exact (P p r E).
  - exfalso. destruct (Pos.to_uint p); discriminate.
  - discriminate.
  - exfalso. apply (P p r). injection E as E. exact E.
Qed.
