(** * Proofs: IEEE 754 encodings *)
From Coq Require Import QArith Qabs Qpower Lia Lqa ZArith.
From Coq Require Import ZifyBool ZifyNat ZifyN.
From Verif Require Import Base PyNum Ast CCommon GenBinary Spec_Num Num_proofs Spec_Ieee.
Open Scope Z_scope.

(** ** Fields of a pattern *)

Lemma ieee_fields : forall eb mb (s : bool) x f, 1 <= eb -> 0 <= mb -> 0 <= f < 2 ^ mb -> 0 <= x < 2 ^ eb ->
  ieee_of eb mb ((if s then 2 ^ (mb + eb) else 0) + x * 2 ^ mb + f)
  = if x =? 2 ^ eb - 1 then (if f =? 0 then IInf s else INaN)
    else if x =? 0 then IFin s (Z.to_N f) (1 - (2 ^ (eb - 1) - 1) - mb)
    else IFin s (Z.to_N (2 ^ mb + f)) (x - (2 ^ (eb - 1) - 1) - mb).
Proof.
  intros eb mb s x f He Hm Hf Hx. unfold ieee_of.
  assert (Pm : 0 < 2 ^ mb) by (apply Z.pow_pos_nonneg; lia). assert (Pe : 0 < 2 ^ eb) by (apply Z.pow_pos_nonneg; lia).
  set (S := if s then 1 else 0).
  assert (ES : (if s then 2 ^ (mb + eb) else 0) = S * 2 ^ eb * 2 ^ mb).
  { unfold S. rewrite Z.pow_add_r by lia. destruct s; lia. }
  rewrite ES. replace (S * 2 ^ eb * 2 ^ mb + x * 2 ^ mb + f) with ((S * 2 ^ eb + x) * 2 ^ mb + f) by ring.
  assert (D : ((S * 2 ^ eb + x) * 2 ^ mb + f) / 2 ^ mb = S * 2 ^ eb + x)
    by (rewrite Z.div_add_l by lia; rewrite Z.div_small by lia; lia).
  assert (M : ((S * 2 ^ eb + x) * 2 ^ mb + f) mod 2 ^ mb = f)
    by (rewrite Z.add_comm, Z.mod_add by lia; apply Z.mod_small; lia).
  rewrite Z.pow_add_r by lia. rewrite <- Z.div_div by lia. rewrite D, M.
  assert (D2 : (S * 2 ^ eb + x) / 2 ^ eb = S) by (rewrite Z.div_add_l by lia; rewrite Z.div_small by lia; lia).
  assert (M2 : (S * 2 ^ eb + x) mod 2 ^ eb = x) by (rewrite Z.add_comm, Z.mod_add by lia; apply Z.mod_small; lia).
  rewrite D2, M2. replace (1 <=? S) with s by (unfold S; destruct s; reflexivity). reflexivity.
Qed.

Lemma ieee_fin_inj : forall s m e s' m' e', IFin s m e = IFin s' m' e' -> s = s' /\ m = m' /\ e = e'.
Proof. intros s m e s' m' e' H. injection H as -> -> ->. repeat split. Qed.

(** Mantissas and exponents of decoded numbers. *)
Lemma ieee_range : forall eb mb b s m e, 1 <= eb -> 0 <= mb -> ieee_of eb mb b = IFin s m e ->
  Z.of_N m < 2 ^ (mb + 1) /\ 1 - (2 ^ (eb - 1) - 1) - mb <= e.
Proof.
  intros eb mb b s m e He Hm H. unfold ieee_of in H.
  assert (Pm : 0 < 2 ^ mb) by (apply Z.pow_pos_nonneg; lia). assert (Pe : 0 < 2 ^ eb) by (apply Z.pow_pos_nonneg; lia).
  assert (F := Z.mod_pos_bound b (2 ^ mb) Pm). assert (X := Z.mod_pos_bound (b / 2 ^ mb) (2 ^ eb) Pe).
  rewrite Z.pow_add_r by lia. change (2 ^ 1) with 2.
  set (x := (b / 2 ^ mb) mod 2 ^ eb) in *. set (f := b mod 2 ^ mb) in *. clearbody x f. cbv zeta in H.
  set (bias := 2 ^ (eb - 1) - 1) in *. clearbody bias.
  destruct (_ =? 2 ^ eb - 1); [destruct (_ =? 0); discriminate|].
  destruct (Z.eqb_spec x 0); apply ieee_fin_inj in H; destruct H as (_ & <- & <-).
  - rewrite Z2N.id by lia. lia.
  - rewrite Z2N.id by lia. lia.
Qed.

(** ** Doubles are written exactly *)

Lemma bits64_exact : forall d, valid_double d = true -> 0 <= bits64 d < 2 ^ 64 /\ double_of (bits64 d) = ieee_double d.
Proof.
  intros d H. unfold double_of. destruct d as [s m e|s]; unfold bits64, valid_double in *; cbn [ieee_double].
  - destruct (N.ltb_spec m (2 ^ 52)) as [L|L].
    + apply Z.eqb_eq in H. subst e. assert (L' : Z.of_N m < 2 ^ 52) by lia. split; [destruct s; lia|].
      replace (_ + Z.of_N m) with ((if s then 2 ^ (52 + 11) else 0) + 0 * 2 ^ 52 + Z.of_N m)
        by (change (2 ^ (52 + 11)) with (2 ^ 63); lia).
      rewrite ieee_fields by lia. rewrite N2Z.id. reflexivity.
    + apply andb_prop in H. destruct H as (H & H3). apply andb_prop in H. destruct H as (H1 & H2).
      apply N.ltb_lt in H1. apply Z.leb_le in H2, H3.
      assert (L' : 2 ^ 52 <= Z.of_N m < 2 ^ 53) by (split; lia). split; [destruct s; lia|].
      rewrite Z.add_assoc. replace (2 ^ 63) with (2 ^ (52 + 11)) by reflexivity.
      rewrite ieee_fields by lia. destruct (Z.eqb_spec (e + 1075) (2 ^ 11 - 1)); [lia|].
      destruct (Z.eqb_spec (e + 1075) 0); [lia|]. f_equal; [|change (2 ^ (11 - 1)) with 1024; lia].
      rewrite Zplus_minus. apply N2Z.id.
  - split; [destruct s; lia|]. replace (_ + 2047 * 2 ^ 52) with ((if s then 2 ^ (52 + 11) else 0) + 2047 * 2 ^ 52 + 0)
      by (change (2 ^ (52 + 11)) with (2 ^ 63); lia).
    rewrite ieee_fields by lia. reflexivity.
Qed.

(** ** Rounding *)

Lemma round_ne_exact : forall m k, k <= 0 -> round_ne m k = m * 2 ^ (- k).
Proof. intros m k H. unfold round_ne. destruct (Z.leb_spec k 0); [reflexivity|lia]. Qed.

Lemma round_ne_nearest : forall m k n, 0 < k ->
  Z.abs (round_ne m k * 2 ^ k - m) <= Z.abs (n * 2 ^ k - m)
  /\ (Z.abs (round_ne m k * 2 ^ k - m) = Z.abs (n * 2 ^ k - m) -> n = round_ne m k \/ Z.even (round_ne m k) = true).
Proof.
  intros m k n Hk. unfold round_ne. destruct (Z.leb_spec k 0); [lia|].
  assert (E : 2 ^ k = 2 * 2 ^ (k - 1)) by (rewrite <- Z.pow_succ_r by lia; f_equal; lia).
  assert (P : 0 < 2 ^ (k - 1)) by (apply Z.pow_pos_nonneg; lia).
  set (h := 2 ^ (k - 1)) in *. assert (Pk : 0 < 2 ^ k) by lia.
  assert (DM := Z.div_mod m (2 ^ k) ltac:(lia)). assert (MB := Z.mod_pos_bound m (2 ^ k) Pk).
  set (q := m / 2 ^ k) in *. set (r := m mod 2 ^ k) in *. rewrite E in *. clearbody q r h. clear E.
  assert (C : n <= q \/ q + 1 <= n) by lia.
  destruct (Z.ltb_spec r h); [|destruct (Z.ltb_spec h r); [|destruct (Z.even q) eqn:Eq]]; destruct C as [C|C];
    (split; [nia|intros A]);
    try (left; nia); try (right; exact Eq); try (right; rewrite Z.even_add, Eq; reflexivity).
Qed.

Lemma round_ne_bounds : forall m k, 0 <= m -> 0 < k -> m / 2 ^ k <= round_ne m k <= m / 2 ^ k + 1.
Proof.
  intros m k Hm Hk. unfold round_ne. destruct (Z.leb_spec k 0); [lia|].
  destruct (_ <? _); [lia|]. destruct (_ <? _); [lia|]. destruct (Z.even _); lia.
Qed.

Section Round.
Variables (p emin m e : Z).
Hypothesis Hp : 1 <= p.
Hypothesis Hm : 0 <= m.
Let q := Z.max (Z.log2 m + 1 + e - p) emin.
Let r := round_ne m (q - e).

Lemma round_range : 0 <= r <= 2 ^ p /\ (0 < m -> emin < q -> 2 ^ (p - 1) <= r).
Proof.
  assert (Hlog : m < 2 ^ (Z.log2 m + 1)).
  { destruct (Z.eq_dec m 0) as [->|N]; [reflexivity|]. apply Z.log2_spec. lia. }
  assert (L0 := Z.log2_nonneg m).
  destruct (Z.leb_spec (q - e) 0) as [L|L]; unfold r.
  - rewrite round_ne_exact by exact L. assert (P : 0 < 2 ^ (- (q - e))) by (apply Z.pow_pos_nonneg; lia). split.
    + split; [nia|]. assert (B : m * 2 ^ (- (q - e)) < 2 ^ (Z.log2 m + 1) * 2 ^ (- (q - e))) by nia.
      rewrite <- Z.pow_add_r in B by lia.
      assert (2 ^ (Z.log2 m + 1 + - (q - e)) <= 2 ^ p) by (apply Z.pow_le_mono_r; lia). lia.
    + intros Pm Q. assert (G := Z.log2_spec m Pm). assert (B : 2 ^ Z.log2 m * 2 ^ (- (q - e)) <= m * 2 ^ (- (q - e))) by nia.
      rewrite <- Z.pow_add_r in B by lia. replace (Z.log2 m + - (q - e)) with (p - 1) in B by lia. exact B.
  - assert (B := round_ne_bounds m (q - e) Hm L). assert (Pk : 0 < 2 ^ (q - e)) by (apply Z.pow_pos_nonneg; lia). split.
    + split; [assert (0 <= m / 2 ^ (q - e)) by (apply Z.div_pos; lia); lia|].
      assert (m / 2 ^ (q - e) < 2 ^ p); [|lia]. apply Z.div_lt_upper_bound; [lia|]. rewrite <- Z.pow_add_r by lia.
      assert (2 ^ (Z.log2 m + 1) <= 2 ^ (q - e + p)) by (apply Z.pow_le_mono_r; lia). lia.
    + intros Pm Q. assert (G := Z.log2_spec m Pm). assert (2 ^ (p - 1) <= m / 2 ^ (q - e)); [|lia].
      apply Z.div_le_lower_bound; [lia|]. rewrite <- Z.pow_add_r by lia. replace (q - e + (p - 1)) with (Z.log2 m) by lia. lia.
Qed.

Open Scope Q_scope.

Lemma dist_scaled : forall a b e, Qabs (inject_Z a * 2 ^ e - inject_Z b * 2 ^ e) == inject_Z (Z.abs (a - b)) * 2 ^ e.
Proof.
  intros a b e'. assert (P := pow2_pos e').
  assert (E : inject_Z a * 2 ^ e' - inject_Z b * 2 ^ e' == inject_Z (a - b) * 2 ^ e').
  { unfold Z.sub. rewrite inject_Z_plus, inject_Z_opp. ring. }
  rewrite E. rewrite Qabs_Qmult. rewrite (Qabs_pos (2 ^ e')) by lra. reflexivity.
Qed.

Lemma rescale : forall a e e', (e' <= e)%Z -> inject_Z a * 2 ^ e == inject_Z (a * 2 ^ (e - e')) * 2 ^ e'.
Proof.
  intros a x y L. symmetry. apply scale. exact L.
Qed.

(** The rounded number is nearest among the numbers of [p] bits. *)
Lemma round_nearest : forall t E, (Z.abs t < 2 ^ p)%Z -> (emin <= E)%Z ->
  Qabs (inject_Z r * 2 ^ q - inject_Z m * 2 ^ e) <= Qabs (inject_Z t * 2 ^ E - inject_Z m * 2 ^ e)
  /\ (Qabs (inject_Z r * 2 ^ q - inject_Z m * 2 ^ e) == Qabs (inject_Z t * 2 ^ E - inject_Z m * 2 ^ e) ->
      inject_Z r * 2 ^ q == inject_Z t * 2 ^ E \/ Z.even r = true).
Proof.
  intros t E Ht HE. destruct (Z.leb_spec (q - e) 0) as [L|L].
  - (* exact *)
    assert (X : inject_Z r * 2 ^ q == inject_Z m * 2 ^ e).
    { unfold r. rewrite round_ne_exact by exact L. symmetry. replace (- (q - e))%Z with (e - q)%Z by lia. apply rescale. lia. }
    rewrite X. assert (Z0 : Qabs (inject_Z m * 2 ^ e - inject_Z m * 2 ^ e) == 0).
    { setoid_replace (inject_Z m * 2 ^ e - inject_Z m * 2 ^ e) with 0 by ring. reflexivity. }
    rewrite Z0. split; [apply Qabs_nonneg|]. intros G. left. symmetry in G.
    assert (G1 := Qle_Qabs (inject_Z t * 2 ^ E - inject_Z m * 2 ^ e)).
    assert (G2 := Qle_Qabs (- (inject_Z t * 2 ^ E - inject_Z m * 2 ^ e))). rewrite Qabs_opp in G2. lra.
  - (* rounded *)
    assert (R : forall n, inject_Z n * 2 ^ q == inject_Z (n * 2 ^ (q - e)) * 2 ^ e) by (intros n; apply rescale; lia).
    assert (Pe := pow2_pos e).
    assert (N : forall n, Qabs (inject_Z r * 2 ^ q - inject_Z m * 2 ^ e) <= Qabs (inject_Z n * 2 ^ q - inject_Z m * 2 ^ e)
      /\ (Qabs (inject_Z r * 2 ^ q - inject_Z m * 2 ^ e) == Qabs (inject_Z n * 2 ^ q - inject_Z m * 2 ^ e) -> n = r \/ Z.even r = true)).
    { intros n. rewrite (R r), (R n), !dist_scaled. destruct (round_ne_nearest m (q - e) n L) as (A & B). split.
      - apply Qmult_le_compat_r; [|lra]. rewrite <- Zle_Qle. exact A.
      - intros G. apply Qmult_inj_r in G; [|lra]. apply B. apply inject_Z_injective. exact G. }
    destruct (Z.leb_spec q E) as [LE|LE].
    + assert (X := rescale t E q LE). rewrite X. destruct (N (t * 2 ^ (E - q))%Z) as (A & B). split; [exact A|].
      intros G. destruct (B G) as [<-|G']; [left; reflexivity|right; exact G'].
    + (* numbers below the binade of m *)
      assert (Q : q = (Z.log2 m + 1 + e - p)%Z) by (unfold q in *; lia).
      assert (Pm : (0 < m)%Z).
      { destruct (Z.eq_dec m 0) as [Z0|]; [|lia]. exfalso. rewrite Z0 in Q. change (Z.log2 0) with 0%Z in Q. lia. }
      assert (G := Z.log2_spec m Pm). assert (L0 := Z.log2_nonneg m).
      assert (B1 : inject_Z (2 ^ (p - 1)) * 2 ^ q <= inject_Z m * 2 ^ e).
      { rewrite (R (2 ^ (p - 1))%Z). apply Qmult_le_compat_r; [|lra]. rewrite <- Zle_Qle, <- Z.pow_add_r by lia.
        replace (p - 1 + (q - e))%Z with (Z.log2 m) by lia. lia. }
      assert (B2 : inject_Z t * 2 ^ E < inject_Z (2 ^ (p - 1)) * 2 ^ q).
      { rewrite (rescale _ q E) by lia. apply Qmult_lt_r; [apply pow2_pos|]. rewrite <- Zlt_Qlt, <- Z.pow_add_r by lia.
        assert (2 ^ p <= 2 ^ (p - 1 + (q - E)))%Z by (apply Z.pow_le_mono_r; lia). lia. }
      destruct (N (2 ^ (p - 1))%Z) as (A & _).
      rewrite (Qabs_neg (inject_Z (2 ^ (p - 1)) * 2 ^ q - inject_Z m * 2 ^ e)) in A by lra.
      rewrite (Qabs_neg (inject_Z t * 2 ^ E - inject_Z m * 2 ^ e)) by lra. split; [lra|]. intros G'. exfalso. lra.
Qed.
End Round.

(** ** Singles are the nearest ones *)

Open Scope Z_scope.

(** (sign, mantissa, exponent) for a rounded mantissa [r] of at most 2^p at
    exponent [q]. *)
Lemma nearest_from_round : forall eb mb (s : bool) m e mm ee,
  1 <= eb -> 0 <= mb ->
  let emin := 1 - (2 ^ (eb - 1) - 1) - mb in
  let q := Z.max (Z.log2 (Z.of_N m) + 1 + e - (mb + 1)) emin in
  let r := round_ne (Z.of_N m) (q - e) in
  (inject_Z (Z.of_N mm) * 2 ^ ee == inject_Z r * 2 ^ q)%Q ->
  (Z.even r = true -> N.even mm = true) ->
  nearest (ieee_of eb mb) (qval s m e) s mm ee.
Proof.
  intros eb mb s m e mm ee He Hm emin q r V Ev b' s' m' e' D.
  destruct (ieee_range eb mb b' s' m' e' He Hm D) as (R1 & R2).
  set (t := if s then - signed s' m' else signed s' m').
  assert (T : (Z.abs t < 2 ^ (mb + 1))%Z) by (unfold t, signed; destruct s, s'; lia).
  destruct (round_nearest (mb + 1) emin (Z.of_N m) e ltac:(lia) ltac:(lia) t e' T R2) as (A & B).
  fold q in A, B. fold r in A, B.
  assert (F : forall mm' ee', (qval s mm' ee' == (if s then - (1) else 1) * (inject_Z (Z.of_N mm') * 2 ^ ee'))%Q)
    by (intros mm' ee'; unfold qval; destruct s; ring).
  assert (F' : (qval s' m' e' == (if s then - (1) else 1) * (inject_Z t * 2 ^ e'))%Q).
  { rewrite qval_signed. unfold t. destruct s; [rewrite inject_Z_opp|]; ring. }
  assert (X : forall x y, (Qabs ((if s then - (1) else 1) * x - (if s then - (1) else 1) * y) == Qabs (x - y))%Q).
  { intros x y. destruct s.
    - rewrite <- (Qabs_opp (x - y)). apply Qabs_wd. ring.
    - apply Qabs_wd. ring. }
  rewrite !F, F', !X, V. split; [exact A|]. intros G. destruct (B G) as [E|E]; [left|right].
  - rewrite E. reflexivity.
  - apply Ev. exact E.
Qed.

Lemma some_inj : forall (A : Type) (a b : A), Some a = Some b -> a = b.
Proof. intros A a b H. injection H as ->. reflexivity. Qed.

Lemma even_N : forall n, N.even n = Z.even (Z.of_N n).
Proof. intros [|[p|p|]]; reflexivity. Qed.

Lemma round_ne_zero : forall k, round_ne 0 k = 0.
Proof.
  intros k. unfold round_ne. destruct (Z.leb_spec k 0); [reflexivity|].
  rewrite Z.div_0_l, Z.mod_0_l by (apply Z.pow_nonzero; lia). assert (0 < 2 ^ (k - 1)) by (apply Z.pow_pos_nonneg; lia).
  destruct (Z.ltb_spec 0 (2 ^ (k - 1))); [reflexivity|lia].
Qed.

Lemma bits32_nearest : forall s m e b, bits32 (DFin s m e) = Some b ->
  exists mm ee, single_of b = IFin s mm ee /\ nearest single_of (qval s m e) s mm ee.
Proof.
  intros s m e b H. unfold bits32 in H. cbv zeta in H.
  set (q := Z.max (Z.log2 (Z.of_N m) + 1 + e - 24) (-149)) in *. set (r := round_ne (Z.of_N m) (q - e)) in *.
  destruct (round_range 24 (-149) (Z.of_N m) e ltac:(lia) ltac:(lia)) as (R1 & R2). fold q in R1, R2. fold r in R1, R2.
  assert (Q0 : -149 <= q) by lia.
  assert (C := nearest_from_round 8 23 s m e). cbv zeta in C.
  change (1 - (2 ^ (8 - 1) - 1) - 23) with (-149) in C. change (23 + 1) with 24 in C. fold q in C. fold r in C.
  assert (Hr : r = round_ne (Z.of_N m) (q - e)) by reflexivity. unfold single_of. clearbody q r.
  destruct (Z.ltb_spec r (2 ^ 23)) as [L|L].
  - destruct (Z.leb_spec (255 * 2 ^ 23) r) as [L'|_]; [discriminate|].
    assert (Eb : b = (if s then 2 ^ (23 + 8) else 0) + 0 * 2 ^ 23 + r) by (apply some_inj in H; rewrite <- H; change (23 + 8) with 31; clear; ring).
    rewrite Eb, ieee_fields by lia. eexists. eexists. split; [reflexivity|].
    apply C; [lia|lia| |intros E; rewrite even_N, Z2N.id by lia; exact E].
    rewrite Z2N.id by lia. destruct (Z.eq_dec (Z.of_N m) 0) as [Z0|NZ].
    + (* zero *) assert (r = 0) as ->; [|ring]. rewrite Hr, Z0. apply round_ne_zero.
    + assert (q = -149) as -> by (destruct (Z.eq_dec q (-149)); [assumption|]; assert (2 ^ (24 - 1) <= r) by (apply R2; lia); lia).
      reflexivity.
  - destruct (Z.leb_spec (255 * 2 ^ 23) ((q + 149) * 2 ^ 23 + r)) as [L'|L']; [discriminate|].
    assert (Eb : b = (if s then 2 ^ (23 + 8) else 0) + ((q + 149) * 2 ^ 23 + r)) by (apply some_inj in H; rewrite <- H; change (23 + 8) with 31; clear; ring).
    destruct (Z.eq_dec r (2 ^ 24)) as [C24|N24].
    + (* the carry *)
      assert (Eb' : b = (if s then 2 ^ (23 + 8) else 0) + (q + 151) * 2 ^ 23 + 0) by lia.
      rewrite Eb', ieee_fields by lia. destruct (Z.eqb_spec (q + 151) (2 ^ 8 - 1)); [lia|].
      destruct (Z.eqb_spec (q + 151) 0); [lia|]. eexists. eexists. split; [reflexivity|].
      apply C; [lia|lia| |reflexivity].
      rewrite Z2N.id by lia. rewrite C24. change (2 ^ (8 - 1) - 1) with 127.
      replace (q + 151 - 127 - 23) with (q + 1) by lia.
      rewrite (rescale (2 ^ 23 + 0) (q + 1) q) by lia. replace (q + 1 - q) with 1 by lia. reflexivity.
    + assert (Eb' : b = (if s then 2 ^ (23 + 8) else 0) + (q + 150) * 2 ^ 23 + (r - 2 ^ 23)) by lia.
      rewrite Eb', ieee_fields by lia. destruct (Z.eqb_spec (q + 150) (2 ^ 8 - 1)); [lia|].
      destruct (Z.eqb_spec (q + 150) 0); [lia|]. eexists. eexists. split; [reflexivity|].
      rewrite Zplus_minus. change (2 ^ (8 - 1) - 1) with 127. replace (q + 150 - 127 - 23) with q by lia.
      apply C; [lia|lia| |intros E; rewrite even_N, Z2N.id by lia; exact E].
      rewrite Z2N.id by lia. reflexivity.
Qed.

Lemma scaled_le : forall a x b y g, g <= x -> g <= y ->
  (inject_Z a * 2 ^ x <= inject_Z b * 2 ^ y)%Q <-> a * 2 ^ (x - g) <= b * 2 ^ (y - g).
Proof.
  intros a x b y g Hx Hy. rewrite (rescale a x g Hx), (rescale b y g Hy), Qmult_le_r by apply pow2_pos.
  rewrite <- Zle_Qle. reflexivity.
Qed.

Lemma round_ne_top_gen : forall p m k, 1 <= p -> 0 <= m -> 0 < k ->
  2 ^ p <= round_ne m k <-> (2 * 2 ^ p - 1) * 2 ^ (k - 1) <= m.
Proof.
  intros p m k Hp Hm Hk. unfold round_ne. destruct (Z.leb_spec k 0); [lia|].
  assert (E : 2 ^ k = 2 * 2 ^ (k - 1)) by (rewrite <- Z.pow_succ_r by lia; f_equal; lia).
  assert (P : 0 < 2 ^ (k - 1)) by (apply Z.pow_pos_nonneg; lia).
  assert (Odd : Z.even (2 ^ p - 1) = false).
  { rewrite Z.even_sub. replace (Z.even (2 ^ p)) with true; [reflexivity|].
    symmetry. replace p with (Z.succ (p - 1)) by lia. rewrite Z.pow_succ_r by lia. rewrite Z.even_mul. reflexivity. }
  set (h := 2 ^ (k - 1)) in *. assert (Pk : 0 < 2 ^ k) by lia.
  assert (DM := Z.div_mod m (2 ^ k) ltac:(lia)). assert (MB := Z.mod_pos_bound m (2 ^ k) Pk).
  set (q := m / 2 ^ k) in *. set (r := m mod 2 ^ k) in *. rewrite E in *. clearbody q r h. clear E.
  set (T := 2 ^ p) in *. clearbody T.
  assert (C : q <= T - 2 \/ q = T - 1 \/ T <= q) by lia.
  destruct (Z.ltb_spec r h); [|destruct (Z.ltb_spec h r); [|destruct (Z.even q) eqn:Eq]];
    (destruct C as [C|[C|C]]; [split; intros; nia|try (rewrite C, Odd in Eq; discriminate Eq); split; intros; nia|split; intros; nia]).
Qed.

Lemma round_ne_top : forall m k, 0 <= m -> 0 < k -> 2 ^ 24 <= round_ne m k <-> (2 ^ 25 - 1) * 2 ^ (k - 1) <= m.
Proof. intros m k Hm Hk. exact (round_ne_top_gen 24 m k ltac:(lia) Hm Hk). Qed.

Lemma abs_qval : forall s m e, (Qabs (qval s m e) == inject_Z (Z.of_N m) * 2 ^ e)%Q.
Proof.
  intros s m e. assert (P := pow2_pos e). assert (N : (0 <= inject_Z (Z.of_N m))%Q) by (change 0%Q with (inject_Z 0); rewrite <- Zle_Qle; lia).
  assert (X : (0 <= inject_Z (Z.of_N m) * 2 ^ e)%Q) by (apply Qmult_le_0_compat; lra).
  unfold qval. destruct s.
  - rewrite Qabs_neg; [ring|]. setoid_replace (- inject_Z (Z.of_N m) * 2 ^ e)%Q with (- (inject_Z (Z.of_N m) * 2 ^ e))%Q by ring. lra.
  - apply Qabs_pos. exact X.
Qed.

Lemma overflow_scaled : (single_overflow == inject_Z (2 ^ 25 - 1) * 2 ^ 103)%Q.
Proof. reflexivity. Qed.

Lemma bits32_overflow : forall s m e, bits32 (DFin s m e) = None <-> (single_overflow <= Qabs (qval s m e))%Q.
Proof.
  intros s m e. rewrite abs_qval, overflow_scaled. unfold bits32. cbv zeta.
  set (q := Z.max (Z.log2 (Z.of_N m) + 1 + e - 24) (-149)). set (r := round_ne (Z.of_N m) (q - e)).
  destruct (round_range 24 (-149) (Z.of_N m) e ltac:(lia) ltac:(lia)) as (R1 & R2). fold q in R1, R2. fold r in R1, R2.
  transitivity (2 ^ 23 <= r /\ 255 * 2 ^ 23 <= (q + 149) * 2 ^ 23 + r).
  { clearbody q r. destruct (Z.ltb_spec r (2 ^ 23)) as [L|L].
    - destruct (Z.leb_spec (255 * 2 ^ 23) r); split; intros H'; try discriminate; lia.
    - destruct (Z.leb_spec (255 * 2 ^ 23) ((q + 149) * 2 ^ 23 + r)); split; intros H'; try discriminate; try reflexivity; lia. }
  assert (Hq : q = Z.max (Z.log2 (Z.of_N m) + 1 + e - 24) (-149)) by reflexivity.
  assert (Hr : r = round_ne (Z.of_N m) (q - e)) by reflexivity. clearbody q r.
  assert (Hm : 0 <= Z.of_N m) by lia. set (M := Z.of_N m) in *. clearbody M. clear m s.
  assert (L0 := Z.log2_nonneg M).
  destruct (Z.eq_dec M 0) as [Z0|NZ].
  { rewrite Z0 in Hr. rewrite round_ne_zero in Hr. split; [lia|]. intros H. exfalso. rewrite Z0 in H.
    setoid_replace (inject_Z 0 * 2 ^ e)%Q with 0%Q in H by ring. apply Qle_not_lt in H. apply H. reflexivity. }
  assert (G := Z.log2_spec M ltac:(lia)).
  (* from [105] on the number is at least 2^128 *)
  assert (Big : 105 <= q -> (inject_Z (2 ^ 25 - 1) * 2 ^ 103 <= inject_Z M * 2 ^ e)%Q).
  { intros Q. rewrite (scaled_le _ _ _ _ (Z.min 103 e)) by lia.
    assert (Qe : q = Z.log2 M + 1 + e - 24) by lia.
    apply Z.le_trans with (2 ^ 25 * 2 ^ (103 - Z.min 103 e)).
    - assert (0 < 2 ^ (103 - Z.min 103 e)) by (apply Z.pow_pos_nonneg; lia). nia.
    - apply Z.le_trans with (2 ^ Z.log2 M * 2 ^ (e - Z.min 103 e)).
      + rewrite <- !Z.pow_add_r by lia. apply Z.pow_le_mono_r; lia.
      + assert (0 < 2 ^ (e - Z.min 103 e)) by (apply Z.pow_pos_nonneg; lia). nia. }
  split.
  - intros (A & B). destruct (Z.leb_spec 105 q) as [Q|Q]; [exact (Big Q)|].
    assert (q = 104 /\ r = 2 ^ 24) as (Eq & Er) by lia.
    destruct (Z.leb_spec (q - e) 0) as [L|L].
    + exfalso. rewrite round_ne_exact in Hr by exact L.
      assert (M * 2 ^ (- (q - e)) < 2 ^ 24); [|lia].
      apply Z.lt_le_trans with (2 ^ (Z.log2 M + 1) * 2 ^ (- (q - e))).
      * assert (0 < 2 ^ (- (q - e))) by (apply Z.pow_pos_nonneg; lia). unfold Z.succ in G. nia.
      * rewrite <- Z.pow_add_r by lia. apply Z.pow_le_mono_r; lia.
    + assert (T := proj1 (round_ne_top M (q - e) Hm L) ltac:(lia)).
      rewrite (scaled_le _ _ _ _ e) by lia. rewrite Z.sub_diag. change (2 ^ 0) with 1. rewrite Z.mul_1_r.
      replace (103 - e) with (q - e - 1) by lia. exact T.
  - intros H.
    assert (Q104 : 104 <= q).
    { destruct (Z.leb_spec 104 q) as [|L]; [assumption|]. exfalso.
      rewrite (scaled_le _ _ _ _ (Z.min 103 e)) in H by lia.
      assert (M * 2 ^ (e - Z.min 103 e) < 2 ^ (Z.log2 M + 1) * 2 ^ (e - Z.min 103 e)).
      { assert (0 < 2 ^ (e - Z.min 103 e)) by (apply Z.pow_pos_nonneg; lia). unfold Z.succ in G. nia. }
      rewrite <- Z.pow_add_r in H0 by lia.
      assert (2 ^ (Z.log2 M + 1 + (e - Z.min 103 e)) <= 2 ^ 24 * 2 ^ (103 - Z.min 103 e)).
      { rewrite <- Z.pow_add_r by lia. apply Z.pow_le_mono_r; lia. }
      assert (0 < 2 ^ (103 - Z.min 103 e)) by (apply Z.pow_pos_nonneg; lia). nia. }
    assert (R3 : 2 ^ (24 - 1) <= r) by (apply R2; lia). change (24 - 1) with 23 in R3.
    split; [exact R3|]. destruct (Z.eq_dec q 104) as [Eq|Nq]; [|lia].
    assert (2 ^ 24 <= r); [|lia].
    destruct (Z.leb_spec (q - e) 0) as [L|L].
    + rewrite Hr, round_ne_exact by exact L.
      rewrite (scaled_le _ _ _ _ 103) in H by lia. rewrite Z.sub_diag, Z.pow_0_r, Z.mul_1_r in H.
      replace (e - 103) with (Z.succ (- (q - e))) in H by lia. rewrite Z.pow_succ_r in H by lia. nia.
    + rewrite Hr. apply (round_ne_top M (q - e) Hm L). rewrite (scaled_le _ _ _ _ e) in H by lia.
      rewrite Z.sub_diag, Z.pow_0_r, Z.mul_1_r in H. replace (q - e - 1) with (103 - e) by lia. exact H.
Qed.

(** ** Ranges of the patterns *)

Lemma bits32_range : forall d b, bits32 d = Some b -> 0 <= b < 2 ^ 32.
Proof.
  intros [s m e|s] b H; unfold bits32 in H; cbv zeta in H.
  - set (q := Z.max (Z.log2 (Z.of_N m) + 1 + e - 24) (-149)) in *. set (r := round_ne (Z.of_N m) (q - e)) in *.
    destruct (round_range 24 (-149) (Z.of_N m) e ltac:(lia) ltac:(lia)) as (R1 & _). fold q in R1. fold r in R1.
    assert (-149 <= q) by lia. clearbody q r.
    destruct (Z.leb_spec (255 * 2 ^ 23) (if r <? 2 ^ 23 then r else (q + 149) * 2 ^ 23 + r)) as [_|L]; [discriminate|].
    apply some_inj in H. subst b. destruct (r <? 2 ^ 23), s; lia.
  - apply some_inj in H. subst b. destruct s; lia.
Qed.

Lemma bits32_inf : forall s b, bits32 (DInf s) = Some b -> single_of b = IInf s.
Proof. intros s b H. apply some_inj in H. subst b. destruct s; reflexivity. Qed.

(** ** Integers as doubles *)

Lemma double_of_Z_none : forall z, double_of_Z z = None <-> 2 ^ 1024 - 2 ^ 970 <= Z.abs z.
Proof.
  intros z. unfold double_of_Z. destruct (Z.eqb_spec z 0) as [->|NZ].
  { split; [discriminate|]. intros H. exfalso. apply Z.le_ngt in H. apply H. reflexivity. }
  assert (P : 0 < Z.abs z) by lia. assert (G := Z.log2_spec (Z.abs z) P). assert (L0 := Z.log2_nonneg (Z.abs z)).
  set (a := Z.abs z) in *. clearbody a. set (e := Z.log2 a - 52).
  destruct (round_range 53 (-1074) a 0 ltac:(lia) ltac:(lia)) as (R1 & R2).
  replace (Z.max (Z.log2 a + 1 + 0 - 53) (-1074)) with e in R1, R2 by (unfold e; lia). rewrite Z.sub_0_r in R1, R2.
  assert (B : 2 ^ 1024 - 2 ^ 970 = (2 * 2 ^ 53 - 1) * 2 ^ 970).
  { change 1024 with (54 + 970). rewrite Z.pow_add_r by lia. change (2 ^ 54) with (2 * 2 ^ 53). ring. }
  rewrite B. clear B. assert (P970 : 0 < 2 ^ 970) by (apply Z.pow_pos_nonneg; lia).
  assert (A1 : 1024 <= Z.log2 a -> 2 * 2 ^ 53 * 2 ^ 970 <= a).
  { intros L. apply Z.le_trans with (2 ^ Z.log2 a); [|apply G]. change (2 * 2 ^ 53) with (2 ^ 54). rewrite <- Z.pow_add_r by lia.
    apply Z.pow_le_mono_r; lia. }
  assert (A2 : Z.log2 a <= 1022 -> a < 2 ^ 53 * 2 ^ 970).
  { intros L. apply Z.lt_le_trans with (2 ^ Z.succ (Z.log2 a)); [apply G|]. rewrite <- Z.pow_add_r by lia. apply Z.pow_le_mono_r; lia. }
  assert (A3 : e = 971 -> 2 ^ 53 <= round_ne a e <-> (2 * 2 ^ 53 - 1) * 2 ^ 970 <= a).
  { intros E. rewrite (round_ne_top_gen 53 a e) by lia. replace (e - 1) with 970 by lia. reflexivity. }
  set (X := 2 ^ 970) in *. clearbody X.
  assert (N : (let '(m, e) := if round_ne a e =? 2 ^ 53 then (2 ^ 52, e + 1) else (round_ne a e, e) in
               if 971 <? e then None else Some (DFin (z <? 0) (Z.to_N m) e)) = None
          <-> (971 < e \/ (e = 971 /\ 2 ^ 53 <= round_ne a e))).
  { destruct (Z.eqb_spec (round_ne a e) (2 ^ 53)) as [E|E].
    - destruct (Z.ltb_spec 971 (e + 1)); split; intros H'; try discriminate; try reflexivity; lia.
    - destruct (Z.ltb_spec 971 e); split; intros H'; try discriminate; try reflexivity; lia. }
  etransitivity; [exact N|]. clear N. unfold e in *. split.
  - intros [H|(H & R)]; [specialize (A1 ltac:(lia)); lia|]. apply A3; assumption.
  - intros H. destruct (Z.leb_spec (Z.log2 a) 1022) as [L|L]; [specialize (A2 L); lia|].
    destruct (Z.eq_dec (Z.log2 a) 1023) as [E|E]; [|left; lia]. right. split; [lia|]. apply A3; [lia|exact H].
Qed.

Lemma double_of_Z_spec : forall z d, double_of_Z z = Some d ->
  valid_double d = true /\ exists s m e, d = DFin s m e /\ nearest double_of (inject_Z z) s m e /\ s = (z <? 0).
Proof.
  intros z d H. unfold double_of_Z in H. destruct (Z.eqb_spec z 0) as [->|NZ].
  { apply some_inj in H. subst d. split; [reflexivity|]. do 3 eexists. split; [reflexivity|]. split; [|reflexivity].
    intros b' s' m' e' _. assert (E : (Qabs (qval false 0 (-1074) - inject_Z 0) == 0)%Q).
    { assert (X : (qval false 0 (-1074) - inject_Z 0 == 0)%Q); [|rewrite X; reflexivity].
      unfold qval. cbn [Z.of_N]. ring. }
    rewrite E. split; [apply Qabs_nonneg|]. intros _. right. reflexivity. }
  assert (P : 0 < Z.abs z) by lia. assert (L0 := Z.log2_nonneg (Z.abs z)).
  assert (Eq : Z.max (Z.log2 (Z.abs z) + 1 + 0 - 53) (-1074) = Z.log2 (Z.abs z) - 52) by lia.
  destruct (round_range 53 (-1074) (Z.abs z) 0 ltac:(lia) ltac:(lia)) as (R1 & R2). rewrite Eq in R1, R2. rewrite Z.sub_0_r in R1, R2.
  specialize (R2 P ltac:(lia)). change (53 - 1) with 52 in R2.
  assert (C := nearest_from_round 11 52 (z <? 0) (Z.to_N (Z.abs z)) 0). cbv zeta in C. rewrite Z2N.id in C by lia.
  change (1 - (2 ^ (11 - 1) - 1) - 52) with (-1074) in C. change (52 + 1) with 53 in C. rewrite Eq in C. rewrite Z.sub_0_r in C.
  assert (V : (inject_Z z == qval (z <? 0) (Z.to_N (Z.abs z)) 0)%Q).
  { rewrite qval_signed. unfold signed. rewrite Z2N.id by lia. destruct (Z.ltb_spec z 0).
    - replace (- Z.abs z) with z by lia. change (2 ^ 0)%Q with 1%Q. ring.
    - replace (Z.abs z) with z by lia. change (2 ^ 0)%Q with 1%Q. ring. }
  set (q := Z.log2 (Z.abs z) - 52) in *. set (r := round_ne (Z.abs z) q) in *. clearbody r.
  assert (W : forall mm ee, nearest (ieee_of 11 52) (qval (z <? 0) (Z.to_N (Z.abs z)) 0) (z <? 0) mm ee ->
                            nearest double_of (inject_Z z) (z <? 0) mm ee).
  { intros mm ee N b' s' m' e' D. rewrite V. exact (N b' s' m' e' D). }
  assert (Q0 : -52 <= q) by lia. clearbody q.
  destruct (Z.eqb_spec r (2 ^ 53)) as [E|NE].
  - destruct (Z.ltb_spec 971 (q + 1)); [discriminate|]. apply some_inj in H. subst d. split.
    + unfold valid_double. replace (Z.to_N (2 ^ 52) <? 2 ^ 52)%N with false by reflexivity.
      replace (Z.to_N (2 ^ 52) <? 2 ^ 53)%N with true by reflexivity. cbn [andb]. lia.
    + do 3 eexists. split; [reflexivity|]. split; [|reflexivity]. apply W. apply C; [lia|lia| |reflexivity].
      rewrite Z2N.id by lia. rewrite E. rewrite (rescale (2 ^ 52) (q + 1) q) by lia.
      replace (q + 1 - q) with 1 by lia. reflexivity.
  - destruct (Z.ltb_spec 971 q); [discriminate|]. apply some_inj in H. subst d. split.
    + unfold valid_double. assert (2 ^ 52 <= Z.to_N r < 2 ^ 53)%N by lia.
      destruct (N.ltb_spec (Z.to_N r) (2 ^ 52)); [lia|]. destruct (N.ltb_spec (Z.to_N r) (2 ^ 53)); [|lia]. cbn [andb]. lia.
    + do 3 eexists. split; [reflexivity|]. split; [|reflexivity]. apply W. apply C; [lia|lia| |intros Ev; rewrite even_N, Z2N.id by lia; exact Ev].
      rewrite Z2N.id by lia. reflexivity.
Qed.
