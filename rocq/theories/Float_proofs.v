(** * Proofs about reading and printing floats *)
From Coq Require Import ZifyBool DecimalString.
From Verif Require Import Base PyNum PyStr PyFloat Ast Spec_Grammar Str_proofs Text_proofs Token_proofs.
Open Scope Z_scope.

(** ** Rounding *)
Lemma round_div_bounds : forall n d, 0 < d -> d * (2 * round_div n d - 1) <= 2 * n <= d * (2 * round_div n d + 1).
Proof.
  intros n d D. unfold round_div. assert (E := Z.div_mod n d ltac:(lia)). assert (B := Z.mod_pos_bound n d D).
  set (q := n / d) in *. set (r := n mod d) in *. clearbody q r.
  destruct (2 * r <? d) eqn:A1; [nia|]. destruct (d <? 2 * r) eqn:A2; [nia|]. destruct (Z.even q); nia.
Qed.
Lemma round_div_le : forall n d k, 0 < d -> n <= d * k -> round_div n d <= k.
Proof.
  intros n d k D H. assert (B := round_div_bounds n d D). set (m := round_div n d) in *. clearbody m.
  destruct (Z_le_gt_dec m k) as [L|G]; [exact L|exfalso].
  assert (k + 1 <= m) by lia. assert (d * (2 * k + 1) <= d * (2 * m - 1)) by nia. nia.
Qed.
Lemma round_div_ge : forall n d k, 0 < d -> d * k <= n -> k <= round_div n d.
Proof.
  intros n d k D H. assert (B := round_div_bounds n d D). set (m := round_div n d) in *. clearbody m.
  destruct (Z_le_gt_dec k m) as [L|G]; [exact L|exfalso].
  assert (m + 1 <= k) by lia. assert (d * (2 * m + 1) <= d * (2 * k - 1)) by nia. nia.
Qed.

(** [2^k <= n/d], for any sign of [k] *)
Definition pow_le (n d k : Z) : Prop := if 0 <=? k then d * 2 ^ k <= n else d <= n * 2 ^ (- k).
Lemma pow_le_scale : forall n d k u v, 0 <= u -> 0 <= v -> u - v = k -> pow_le n d k <-> d * 2 ^ u <= n * 2 ^ v.
Proof.
  intros n d k u v U V E. unfold pow_le. destruct (0 <=? k) eqn:K.
  - replace u with (k + v) by lia. rewrite Z.pow_add_r by lia. assert (0 < 2 ^ v) by (apply Z.pow_pos_nonneg; lia).
    set (a := 2 ^ k). set (b := 2 ^ v) in *. clearbody a b. split; nia.
  - replace v with (- k + u) by lia. rewrite Z.pow_add_r by lia. assert (0 < 2 ^ u) by (apply Z.pow_pos_nonneg; lia).
    set (a := 2 ^ (- k)). set (b := 2 ^ u) in *. clearbody a b. split; nia.
Qed.
Lemma pow_le_mono : forall n d k k', 0 < d -> k' <= k -> pow_le n d k -> pow_le n d k'.
Proof.
  intros n d k k' D L H. set (v := Z.max 0 (- k')).
  apply (pow_le_scale n d k' (k' + v) v); [lia..|].
  apply (pow_le_scale n d k (k + v) v) in H; [|lia..].
  eapply Z.le_trans; [|exact H]. apply Z.mul_le_mono_nonneg_l; [lia|]. apply Z.pow_le_mono_r; lia.
Qed.
Lemma not_pow_le : forall n d k, ~ pow_le n d k -> forall u v, 0 <= u -> 0 <= v -> u - v = k -> n * 2 ^ v < d * 2 ^ u.
Proof. intros n d k H u v U V E. destruct (Z_lt_ge_dec (n * 2 ^ v) (d * 2 ^ u)) as [L|G]; [exact L|]. destruct H. apply (pow_le_scale n d k u v U V E). lia. Qed.

(** The exponent found: [2^k <= n/d < 2^(k+1)]. *)
Definition top (n d : Z) : Z :=
  let l := Z.log2 n - Z.log2 d in
  if (if 0 <=? l then n <? d * 2 ^ l else n * 2 ^ (- l) <? d) then l - 1 else l.
Lemma top_spec : forall n d, 0 < n -> 0 < d -> pow_le n d (top n d) /\ ~ pow_le n d (top n d + 1).
Proof.
  intros n d N D. unfold top. set (l := Z.log2 n - Z.log2 d).
  assert (LN := Z.log2_spec n N). assert (LD := Z.log2_spec d D).
  assert (PN := Z.log2_nonneg n). assert (PD := Z.log2_nonneg d).
  assert (H1 : pow_le n d (l - 1)).
  { apply (pow_le_scale n d (l - 1) (Z.log2 n) (Z.log2 d + 1)); [lia..|].
    set (a := 2 ^ Z.log2 n) in *. replace (2 ^ (Z.log2 d + 1)) with (2 ^ Z.succ (Z.log2 d)) by (f_equal; lia).
    set (b := 2 ^ Z.succ (Z.log2 d)) in *. assert (0 < a) by (apply Z.pow_pos_nonneg; lia). clearbody a b. nia. }
  assert (H2 : ~ pow_le n d (l + 1)).
  { intros H. apply (pow_le_scale n d (l + 1) (Z.succ (Z.log2 n)) (Z.log2 d)) in H; [|lia..].
    assert (0 < 2 ^ Z.log2 d) by (apply Z.pow_pos_nonneg; lia).
    set (a := 2 ^ Z.succ (Z.log2 n)) in *. set (b := 2 ^ Z.log2 d) in *. clearbody a b. nia. }
  assert (H3 : (if 0 <=? l then n <? d * 2 ^ l else n * 2 ^ (- l) <? d) = true <-> ~ pow_le n d l).
  { unfold pow_le. destruct (0 <=? l); lia. }
  destruct (if 0 <=? l then _ else _) eqn:B.
  - split; [exact H1|]. replace (l - 1 + 1) with l by lia. apply H3. reflexivity.
  - split; [|exact H2]. destruct (0 <=? l) eqn:L; unfold pow_le; rewrite L; lia.
Qed.

(** The numerator and denominator rounded for the exponent [q]. *)
Definition scaled (n d q : Z) : Z * Z := if 0 <=? q then (n, d * 2 ^ q) else (n * 2 ^ (- q), d).
Lemma scaled_den : forall n d q, 0 < d -> 0 < snd (scaled n d q).
Proof.
  intros n d q D. unfold scaled. destruct (0 <=? q) eqn:Q; simpl; [|exact D].
  apply Z.mul_pos_pos; [exact D|apply Z.pow_pos_nonneg; lia].
Qed.
Lemma scaled_pow : forall n d q j, 0 <= j -> 0 < d -> snd (scaled n d q) * 2 ^ j <= fst (scaled n d q) <-> pow_le n d (q + j).
Proof.
  intros n d q j J D. unfold scaled. destruct (0 <=? q) eqn:Q; simpl.
  - rewrite (pow_le_scale n d (q + j) (q + j) 0) by lia. rewrite Z.pow_add_r by lia. change (2 ^ 0) with 1.
    rewrite Z.mul_1_r, Z.mul_assoc. reflexivity.
  - rewrite (pow_le_scale n d (q + j) j (- q)) by lia. reflexivity.
Qed.

Definition mantissa (n d q : Z) : Z := round_div (fst (scaled n d q)) (snd (scaled n d q)).
Lemma nearest_double_eq : forall neg n d, nearest_double neg n d =
  if n =? 0 then DFin neg 0 (-1074) else
    let q := Z.max (top n d - 52) (-1074) in
    let m := mantissa n d q in
    let '(m, q) := if m =? 2 ^ 53 then (2 ^ 52, q + 1) else (m, q) in
    if 971 <? q then DInf neg else DFin neg (Z.to_N m) q.
Proof.
  intros neg n d. unfold nearest_double, mantissa, scaled. fold (top n d). cbv zeta.
  destruct (n =? 0); [reflexivity|]. destruct (0 <=? Z.max (top n d - 52) (-1074)); reflexivity.
Qed.

Lemma mantissa_range : forall n d q, 0 < n -> 0 < d -> q = Z.max (top n d - 52) (-1074) ->
  0 <= mantissa n d q <= 2 ^ 53 /\ (-1074 < q -> 2 ^ 52 <= mantissa n d q).
Proof.
  intros n d q N D Q. destruct (top_spec n d N D) as [T1 T2]. assert (B := scaled_den n d q D).
  unfold mantissa. split; [split|].
  - apply round_div_ge; [exact B|]. rewrite Z.mul_0_r. unfold scaled. destruct (0 <=? q); simpl; [lia|].
    assert (0 <= 2 ^ (- q)) by (apply Z.pow_nonneg; lia). nia.
  - apply round_div_le; [exact B|].
    destruct (Z_le_gt_dec (fst (scaled n d q)) (snd (scaled n d q) * 2 ^ 53)) as [L|G]; [exact L|exfalso].
    apply T2. apply (pow_le_mono n d (q + 53)); [exact D|lia|]. apply scaled_pow; [lia|exact D|]. apply Z.lt_le_incl, Z.gt_lt, G.
  - intros QQ. apply round_div_ge; [exact B|]. apply scaled_pow; [lia|exact D|].
    replace (q + 52) with (top n d) by lia. exact T1.
Qed.

Lemma nearest_double_valid : forall neg n d, 0 <= n -> 0 < d -> valid_double (nearest_double neg n d) = true.
Proof.
  intros neg n d N D. rewrite nearest_double_eq. destruct (n =? 0) eqn:Z0; [reflexivity|].
  cbv zeta. set (q := Z.max (top n d - 52) (-1074)).
  destruct (mantissa_range n d q ltac:(lia) D eq_refl) as [M1 M2]. set (m := mantissa n d q) in *.
  assert (Q : -1074 <= q) by lia. clearbody q m. change (2 ^ 53) with 9007199254740992 in *. change (2 ^ 52) with 4503599627370496 in *.
  destruct (m =? 9007199254740992) eqn:E.
  - destruct (971 <? q + 1) eqn:E2; [reflexivity|]. cbn [valid_double].
    change (Z.to_N 4503599627370496) with 4503599627370496%N. change (2^52)%N with 4503599627370496%N.
    change (2^53)%N with 9007199254740992%N. change (4503599627370496 <? 4503599627370496)%N with false.
    change (4503599627370496 <? 9007199254740992)%N with true. cbv iota. rewrite andb_true_l. lia.
  - destruct (971 <? q) eqn:E2; [reflexivity|]. cbn [valid_double].
    change (2^52)%N with 4503599627370496%N. change (2^53)%N with 9007199254740992%N.
    destruct (Z.to_N m <? 4503599627370496)%N eqn:E3; lia.
Qed.
Lemma decimal_double_valid : forall neg n e, 0 <= n -> valid_double (decimal_double neg n e) = true.
Proof.
  intros neg n e N. unfold decimal_double. destruct (0 <=? e) eqn:E.
  - apply nearest_double_valid; [|lia]. assert (0 <= 10 ^ e) by (apply Z.pow_nonneg; lia). nia.
  - apply nearest_double_valid; [exact N|]. apply Z.pow_pos_nonneg; lia.
Qed.

(** ** The characters of a printed float *)
Open Scope string_scope.
Definition float_char (c : ascii) : bool :=
  is_digit c || is_lower c || Ascii.eqb c "." || Ascii.eqb c "+" || Ascii.eqb c "-".
Lemma all_chars_repeat : forall f n t, all_chars f t = true -> all_chars f (repeat_str n t) = true.
Proof. intros f n t H. induction n as [|n IH]; simpl; [reflexivity|]. rewrite all_chars_app, H. exact IH. Qed.
Lemma all_chars_substring : forall f s n m, all_chars f s = true -> all_chars f (substring n m s) = true.
Proof.
  intros f. induction s as [|c s IH]; intros n m H; [destruct n, m; reflexivity|].
  simpl in H. apply andb_true_iff in H as [H1 H2]. destruct n; [destruct m|]; simpl; [reflexivity| |].
  - rewrite H1. apply IH, H2.
  - apply IH, H2.
Qed.
Lemma all_chars_imp : forall (f g : ascii -> bool) s, (forall c, f c = true -> g c = true) -> all_chars f s = true -> all_chars g s = true.
Proof.
  intros f g s H. induction s as [|c s IH]; simpl; [auto|]. intros K. apply andb_true_iff in K as [K1 K2].
  rewrite (H _ K1). auto.
Qed.
Lemma digit_float : forall c, is_digit c = true -> float_char c = true.
Proof. intros c H. unfold float_char. rewrite H. reflexivity. Qed.
Lemma uint_digits : forall u, all_chars is_digit (NilEmpty.string_of_uint u) = true.
Proof. induction u; simpl; auto. Qed.
Lemma strip_zeros_chars : forall f s, all_chars f s = true -> all_chars f (strip_zeros s) = true.
Proof.
  intros f. induction s as [|c s IH]; simpl; intros H; [reflexivity|]. apply andb_true_iff in H as [H1 H2]. specialize (IH H2).
  destruct (strip_zeros s) as [|d r]; [destruct (Ascii.eqb c "0"); simpl; rewrite ?H1; reflexivity|].
  simpl in *. rewrite H1. exact IH.
Qed.

Lemma str_of_Z_digits : forall z, (0 <= z)%Z -> all_chars is_digit (str_of_Z z) = true.
Proof.
  intros z H. unfold str_of_Z, NilZero.string_of_int. destruct (Z.to_int z) as [u|u] eqn:E.
  - unfold NilZero.string_of_uint. destruct u; try reflexivity; apply uint_digits.
  - destruct z; try discriminate E. lia.
Qed.
Definition reprs (s : string) : Prop := all_chars float_char s = true /\ s <> "".
Lemma format_repr_chars : forall n e, (0 <= n)%Z -> reprs (format_repr n e).
Proof.
  intros n e N. unfold format_repr.
  set (ds := match strip_zeros (str_of_Z n) with "" => "0" | s => s end).
  assert (D : all_chars float_char ds = true).
  { apply (all_chars_imp is_digit); [apply digit_float|]. assert (S := strip_zeros_chars _ _ (str_of_Z_digits n N)).
    unfold ds. destruct (strip_zeros (str_of_Z n)); [reflexivity|exact S]. }
  assert (DN : exists c x, ds = String c x).
  { unfold ds. destruct (strip_zeros (str_of_Z n)); eauto. }
  clearbody ds. destruct DN as (c & x & E).
  set (p := (Z.of_nat (String.length (str_of_Z n)) + e)%Z). clearbody p. set (k := String.length ds).
  assert (R : forall j, all_chars float_char (repeat_str j "0") = true) by (intros j; apply all_chars_repeat; reflexivity).
  assert (S : forall i j, all_chars float_char (substring i j ds) = true) by (intros i j; apply all_chars_substring, D).
  assert (X : all_chars float_char (str_of_Z (Z.abs (p - 1))) = true).
  { apply (all_chars_imp is_digit); [apply digit_float|]. apply str_of_Z_digits. lia. }
  destruct ((-4 <? p) && (p <=? 16))%Z.
  - destruct (p <=? 0)%Z; [|destruct (Z.of_nat k <=? p)%Z].
    + split; [|discriminate]. rewrite !all_chars_app, R, D. reflexivity.
    + split; [|rewrite E; discriminate]. rewrite !all_chars_app, R, D. reflexivity.
    + split; [rewrite !all_chars_app, !S; reflexivity|].
      destruct (substring 0 (Z.to_nat p) ds); discriminate.
  - cbv zeta. split.
    + rewrite !all_chars_app, S, R, X.
      destruct (1 <? k)%nat; rewrite ?all_chars_app, ?S; destruct (p - 1 <? 0)%Z; reflexivity.
    + rewrite E. discriminate.
Qed.
Lemma all_nonneg : forall a b, (0 <= a)%Z -> (0 < b)%Z -> (0 <= round_div a b)%Z.
Proof. intros a b A B. apply round_div_ge; [exact B|]. rewrite Z.mul_0_r. exact A. Qed.
Lemma shortest_nonneg : forall f d a b p k, (0 <= a)%Z -> (0 < b)%Z -> (0 <= fst (shortest f d a b p k))%Z.
Proof.
  induction f as [|f IH]; intros d a b p k A B; simpl; [apply Z.div_pos; lia|].
  destruct (try_digits d a b p k) as [[n e]|] eqn:T; [|apply IH; assumption]. unfold try_digits in T. cbv zeta in T.
  set (a' := if (0 <=? p - k)%Z then a else (a * 10 ^ (- (p - k)))%Z) in *.
  set (b' := if (0 <=? p - k)%Z then (b * 10 ^ (p - k))%Z else b) in *.
  assert (A' : (0 <= a')%Z).
  { unfold a'. destruct (0 <=? p - k)%Z; [exact A|]. assert (0 <= 10 ^ (- (p - k)))%Z by (apply Z.pow_nonneg; lia). nia. }
  assert (B' : (0 < b')%Z).
  { unfold b'. destruct (0 <=? p - k)%Z eqn:Q; [|exact B]. assert (0 < 10 ^ (p - k))%Z by (apply Z.pow_pos_nonneg; lia). nia. }
  clearbody a' b'. assert (Z1 := all_nonneg _ _ A' B'). assert (Z2 : (0 <= a' / b')%Z) by (apply Z.div_pos; lia).
  destruct (same_double _ _) in T; [injection T as <- _; exact Z1|].
  destruct (same_double _ _) in T; [injection T as <- _; exact Z2|].
  destruct (same_double _ _) in T; [injection T as <- _; simpl; lia|discriminate].
Qed.
Lemma float_repr_chars : forall d, reprs (float_repr d).
Proof.
  intros [s m e|s]; unfold float_repr; [|destruct s; split; (reflexivity || discriminate)].
  - assert (Q : reprs (if (m =? 0)%N then "0.0" else
         let a := if (0 <=? e)%Z then (Z.of_N m * 2 ^ e)%Z else Z.of_N m in
         let b := if (0 <=? e)%Z then 1%Z else (2 ^ (- e))%Z in
         let '(n, x) := shortest 17 (DFin false m e) a b (point_position a b) 1 in
         format_repr n x)).
    { destruct (m =? 0)%N; [split; [reflexivity|discriminate]|]. cbv zeta.
      match goal with |- reprs (let '(n, x) := ?S in _) => assert (N : (0 <= fst S)%Z); [|destruct S as [n x]] end.
      - apply shortest_nonneg.
        + destruct (0 <=? e)%Z eqn:E; [|lia]. assert (0 <= 2 ^ e)%Z by (apply Z.pow_nonneg; lia). nia.
        + destruct (0 <=? e)%Z eqn:E; [lia|]. apply Z.pow_pos_nonneg; lia.
      - apply format_repr_chars, N. }
    cbv zeta in *. match type of Q with reprs ?x => set (y := x) in * end. clearbody y.
    destruct Q as [Q1 Q2]. split; [rewrite all_chars_app, Q1; destruct s; reflexivity|].
    destruct s; [discriminate|exact Q2].
Qed.
Lemma digits_value_nonneg : forall s acc, all_chars is_digit s = true -> (0 <= acc)%Z -> (0 <= digits_value acc s)%Z.
Proof.
  induction s as [|c s IH]; cbn [digits_value all_chars]; intros acc H A; [exact A|]. apply andb_true_iff in H as [H1 H2]. apply IH; [exact H2|].
  assert (48 <= Z.of_N (N_of_ascii c))%Z; [|lia].
  revert H1. destruct c as [[] [] [] [] [] [] [] []]; vm_compute; intros; congruence.
Qed.
Lemma float_ok_valid : forall f, float_ok f = true -> valid_double (fval f) = true.
Proof. intros f H. apply andb_true_iff in H. apply H. Qed.
Lemma float_ok_repr : forall f, float_ok f = true -> frepr f = float_repr (fval f).
Proof. intros f H. apply andb_true_iff in H as [_ H]. apply String.eqb_eq, H. Qed.
Lemma float_ok_chars : forall f, float_ok f = true -> all_chars float_char (frepr f) = true /\ frepr f <> "".
Proof. intros f H. rewrite (float_ok_repr f H). apply float_repr_chars. Qed.
Lemma py_float_ok : forall neg n e, (0 <= n)%Z -> float_ok (py_float neg n e) = true.
Proof.
  intros neg n e N. unfold float_ok, py_float. cbn [fval frepr]. rewrite decimal_double_valid, String.eqb_refl by exact N. reflexivity.
Qed.
