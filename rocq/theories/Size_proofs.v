(** * Proofs about sizes *)
From Coq Require Import ZifyBool ZifyNat.
From Verif Require Import Base PyNum PyStr Ast Size Processor Bundle Sorter CCommon Lib_proofs
  Spec_Enum Spec_Num Spec_Check Spec_Grammar Spec_Bundle Spec_Size Enum_proofs Num_proofs Check_proofs
  Bundle_proofs Accept_proofs.
Open Scope Z_scope.

(** ** Sizes of integer types *)

Lemma get_c_type_integer : forall b e, b <= e ->
  get_c_type (TInteger (Some (b, e))) = Some (if 0 <=? b then A_UINT else A_INT).
Proof.
  intros b e H. unfold get_c_type, asn1_type. cbn [type_begin type_end].
  rewrite num_lt_int, num_le_int. replace (e <? b) with false by lia.
  cbn. destruct (0 <=? b); reflexivity.
Qed.

Lemma base_size_unsigned : forall b e, b <= e -> 0 <= b ->
  base_size (TInteger (Some (b, e))) = Ok (bit_length e).
Proof.
  intros b e H Hb. unfold base_size. rewrite get_c_type_integer by exact H.
  replace (0 <=? b) with true by lia. reflexivity.
Qed.

Lemma base_size_signed : forall b e, b <= e -> b < 0 ->
  base_size (TInteger (Some (b, e))) = get_bit_size A_INT (Some (NInt b)) (Some (NInt e)).
Proof.
  intros b e H Hb. unfold base_size. rewrite get_c_type_integer by exact H.
  replace (0 <=? b) with false by lia. reflexivity.
Qed.

Lemma unsigned_width : forall b e w, 0 <= b <= e ->
  (0 <= w -> holds_unsigned w b e <-> e < 2 ^ w).
Proof.
  intros b e w H Hw. unfold holds_unsigned. split.
  - intros G. apply (G e). lia.
  - intros G v Hv. lia.
Qed.

Lemma signed_fits : forall b e w, b <= e -> holds_signed w b e <-> - 2 ^ (w - 1) <= b /\ e <= 2 ^ (w - 1) - 1.
Proof.
  intros b e w H. unfold holds_signed. split.
  - intros G. assert (G1 := G b). assert (G2 := G e). lia.
  - intros G v Hv. lia.
Qed.

Lemma signed_size_spec : forall b e, b <= e ->
  match get_bit_size A_INT (Some (NInt b)) (Some (NInt e)) with
  | Ok w => smallest [8; 16; 32; 64] (fun w => holds_signed w b e) w
  | Err ValueErr => forall w, In w [8; 16; 32; 64] -> ~ holds_signed w b e
  | _ => False
  end.
Proof.
  intros b e H. cbn [get_bit_size].
  assert (G : forall w, holds_signed w b e <-> - 2 ^ (w - 1) <= b /\ e <= 2 ^ (w - 1) - 1)
    by (intros w; apply signed_fits; exact H).
  assert (G8 := G 8). assert (G16 := G 16). assert (G32 := G 32). assert (G64 := G 64).
  change (- 2 ^ 7) with (-128). change (- 2 ^ 15) with (-32768). change (- 2 ^ 31) with (-2147483648).
  change (- 2 ^ 63) with (-9223372036854775808).
  change (2 ^ (8 - 1)) with 128 in *. change (2 ^ (16 - 1)) with 32768 in *.
  change (2 ^ (32 - 1)) with 2147483648 in *. change (2 ^ (64 - 1)) with 9223372036854775808 in *.
  change (2 ^ 7) with 128. change (2 ^ 15) with 32768. change (2 ^ 31) with 2147483648.
  change (2 ^ 63) with 9223372036854775808.
  destruct ((-128 <=? b) && (e <=? 128 - 1)) eqn:EG8.
  { split; [simpl; tauto|]. split; [apply G8; lia|].
    intros m [<-|[<-|[<-|[<-|[]]]]] Hm; try lia;
      first [apply G8 in Hm|apply G16 in Hm|apply G32 in Hm|idtac]; lia. }
  destruct ((-32768 <=? b) && (e <=? 32768 - 1)) eqn:EG16.
  { split; [simpl; tauto|]. split; [apply G16; lia|].
    intros m [<-|[<-|[<-|[<-|[]]]]] Hm; try lia;
      first [apply G8 in Hm|apply G16 in Hm|apply G32 in Hm|idtac]; lia. }
  destruct ((-2147483648 <=? b) && (e <=? 2147483648 - 1)) eqn:EG32.
  { split; [simpl; tauto|]. split; [apply G32; lia|].
    intros m [<-|[<-|[<-|[<-|[]]]]] Hm; try lia;
      first [apply G8 in Hm|apply G16 in Hm|apply G32 in Hm|idtac]; lia. }
  destruct ((-9223372036854775808 <=? b) && (e <=? 9223372036854775808 - 1)) eqn:EG64.
  { split; [simpl; tauto|]. split; [apply G64; lia|].
    intros m [<-|[<-|[<-|[<-|[]]]]] Hm; try lia;
      first [apply G8 in Hm|apply G16 in Hm|apply G32 in Hm|idtac]; lia. }
  intros w [<-|[<-|[<-|[<-|[]]]]] Hm;
    first [apply G8 in Hm|apply G16 in Hm|apply G32 in Hm|apply G64 in Hm]; lia.
Qed.

(** ** Members of integer type in accepted bundles *)

Lemma integer_member_size : forall input bun t b e fuel,
  Forall (fun m => grammatical m = true) input -> accepted input bun ->
  member_type (definitions input) t -> integer_type (definitions input) t b e ->
  b <= e /\ member_size (S fuel) (all_defs bun) t = base_size (TInteger (Some (b, e))).
Proof.
  intros input bun t b e fuel Hg Ha (d & k & Hd & Hk & Et) Hi.
  destruct (accepted_same _ _ Ha) as (_ & Hs & Hn).
  assert (Hc : forall d, In d (all_defs bun) -> is_name_capital (def_name d) = true)
    by (intros x; apply (accepted_capital input); assumption).
  destruct Hi as [->|(n & c & -> & Hin)].
  - assert (Hv := accepted_modules_valid _ _ Hg Ha).
    destruct (definitions_types input d k Hg Hv Hd Hk) as (_ & Hr & _). rewrite Et in Hr.
    split; [exact (Forall_inv Hr)|]. cbn [member_size].
    assert (L : resolve (all_defs bun) (TInteger (Some (b, e))) = RNone).
    { unfold resolve. rewrite lookup_keyword; auto; [|discriminate]. simpl. intros (n & E). discriminate. }
    rewrite L. reflexivity.
  - apply (same_simple _ _ n _ c Hs) in Hin.
    destruct (accepted_simple _ _ _ _ _ Hg Ha Hin) as (_ & Hr & _).
    split; [exact (Forall_inv Hr)|]. cbn [member_size resolve type_name].
    assert (L := lookup_unique _ _ Hn Hin). simpl in L. rewrite L. reflexivity.
Qed.

Lemma unsigned_member_size : forall input bun t b e fuel,
  Forall (fun m => grammatical m = true) input -> accepted input bun ->
  member_type (definitions input) t -> integer_type (definitions input) t b e -> 0 <= b ->
  exists w, member_size (S fuel) (all_defs bun) t = Ok w /\ 0 <= w /\ holds_unsigned w b e
    /\ forall w', 0 <= w' -> holds_unsigned w' b e -> w <= w'.
Proof.
  intros input bun t b e fuel Hg Ha Hm Hi Hb.
  destruct (integer_member_size _ _ _ _ _ fuel Hg Ha Hm Hi) as [Hbe ->].
  rewrite base_size_unsigned by assumption. exists (bit_length e). split; [reflexivity|].
  destruct (bit_length_least e) as (H0 & H1 & H2); [lia|]. split; [exact H0|]. split.
  - apply unsigned_width; lia.
  - intros w' Hw' G. apply H2; [exact Hw'|]. apply unsigned_width in G; lia.
Qed.

Lemma signed_member_size : forall input bun t b e fuel,
  Forall (fun m => grammatical m = true) input -> accepted input bun ->
  member_type (definitions input) t -> integer_type (definitions input) t b e -> b < 0 ->
  (exists w, member_size (S fuel) (all_defs bun) t = Ok w
     /\ smallest [8; 16; 32; 64] (fun w => holds_signed w b e) w)
  \/ (member_size (S fuel) (all_defs bun) t = Err ValueErr
      /\ forall w, In w [8; 16; 32; 64] -> ~ holds_signed w b e).
Proof.
  intros input bun t b e fuel Hg Ha Hm Hi Hb.
  destruct (integer_member_size _ _ _ _ _ fuel Hg Ha Hm Hi) as [Hbe ->].
  rewrite base_size_signed by assumption. assert (G := signed_size_spec b e Hbe).
  destruct (get_bit_size A_INT (Some (NInt b)) (Some (NInt e))) as [w|er|].
  - left. exists w. auto.
  - right. destruct er; try destruct G. auto.
  - destruct G.
Qed.

(** ** Bits to bytes *)

Lemma round_ne_exact : forall q k, 0 <= k -> round_ne (q * 2 ^ k) k = q.
Proof.
  intros q k Hk. unfold round_ne. destruct (k <=? 0) eqn:E.
  - assert (k = 0) by lia. subst. change (2 ^ 0) with 1. change (2 ^ - 0) with 1. lia.
  - assert (P : 0 < 2 ^ k) by (apply Z.pow_pos_nonneg; lia).
    rewrite Z.div_mul, Z.mod_mul by lia.
    assert (P' : 0 < 2 ^ (k - 1)) by (apply Z.pow_pos_nonneg; lia).
    replace (0 <? 2 ^ (k - 1)) with true by lia. reflexivity.
Qed.

Lemma bit_to_bytes_exact : forall n k, 0 <= k -> Z.abs n < 2 ^ 53 -> k <= 900 ->
  bit_to_bytes (8 * (n * 2 ^ k)) = Ok (n * 2 ^ k).
Proof.
  intros n k Hk Hn Hk9. unfold bit_to_bytes.
  assert (P : 0 < 2 ^ k) by (apply Z.pow_pos_nonneg; lia).
  rewrite (Z.mul_comm 8), Z.mod_mul by lia. cbn [Z.eqb negb].
  unfold truediv8_int. set (a := n * 2 ^ k * 8).
  assert (R : round_ne (Z.abs a) (Z.max 0 (Z.log2 (Z.abs a) + 1 - 53)) *
              2 ^ (Z.max 0 (Z.log2 (Z.abs a) + 1 - 53)) = Z.abs a).
  { set (j := Z.max 0 (Z.log2 (Z.abs a) + 1 - 53)).
    assert (Ej : exists q, Z.abs a = q * 2 ^ j).
    { destruct (Z.eq_dec n 0) as [->|Hn0].
      - exists 0. unfold a. rewrite !Z.mul_0_l. reflexivity.
      - assert (Ea : Z.abs a = Z.abs n * 2 ^ (k + 3)).
        { unfold a. rewrite Z.pow_add_r by lia. rewrite !Z.abs_mul, (Z.abs_eq (2 ^ k)) by lia.
          change (Z.abs 8) with 8. change (2 ^ 3) with 8. ring. }
        assert (L : Z.log2 (Z.abs n) < 53) by (apply Z.log2_lt_pow2; lia).
        assert (E : Z.log2 (Z.abs a) = k + 3 + Z.log2 (Z.abs n)).
        { rewrite Ea, Z.log2_mul_pow2 by lia. lia. }
        assert (Hj : j <= k + 3 /\ 0 <= j) by (unfold j; lia).
        exists (Z.abs n * 2 ^ (k + 3 - j)). rewrite Ea, <- Z.mul_assoc, <- Z.pow_add_r by lia.
        f_equal. f_equal. lia. }
    destruct Ej as (q & ->). rewrite round_ne_exact by (unfold j; lia). reflexivity. }
  rewrite R.
  assert (B : Z.abs a < 2 ^ 1027).
  { unfold a. rewrite !Z.abs_mul, (Z.abs_eq (2 ^ k)) by lia. change (Z.abs 8) with (2 ^ 3).
    apply Z.lt_le_trans with (2 ^ 53 * 2 ^ k * 2 ^ 3).
    - apply Z.mul_lt_mono_pos_r; [reflexivity|]. apply Z.mul_lt_mono_pos_r; assumption.
    - rewrite <- !Z.pow_add_r by lia. apply Z.pow_le_mono_r; lia. }
  replace (2 ^ 1027 <=? Z.abs a) with false by lia. f_equal.
  assert (D : Z.abs a / 8 = Z.abs (n * 2 ^ k)) by (unfold a; rewrite Z.abs_mul; apply Z.div_mul; lia).
  rewrite D. unfold a. rewrite Z.sgn_mul. change (Z.sgn 8) with 1. rewrite Z.mul_1_r, Z.mul_comm.
  apply Z.abs_sgn.
Qed.

Lemma bit_to_bytes_small : forall bits, - 2 ^ 56 <= bits <= 2 ^ 56 -> bits mod 8 = 0 ->
  exists n, bit_to_bytes bits = Ok n /\ 8 * n = bits.
Proof.
  intros bits Hb Hm. assert (E := Z.div_mod bits 8 ltac:(lia)). rewrite Hm, Z.add_0_r in E.
  set (n := bits / 8) in *. exists n. split; [|lia].
  destruct (Z.eq_dec (Z.abs n) (2 ^ 53)) as [H|H].
  - assert (En : n = Z.sgn n * 2 ^ 53) by (rewrite <- H, Z.mul_comm; symmetry; apply Z.abs_sgn).
    rewrite E. clearbody n. clear E. rewrite En. apply bit_to_bytes_exact; [lia| |lia].
    destruct n; reflexivity.
  - assert (G := bit_to_bytes_exact n 0). change (2 ^ 0) with 1 in G. rewrite Z.mul_1_r in G.
    rewrite E. apply G; [lia| |lia]. change (2 ^ 56) with (8 * 2 ^ 53) in Hb. lia.
Qed.

Lemma bit_to_bytes_value_error : forall bits, bit_to_bytes bits = Err ValueErr <-> bits mod 8 <> 0.
Proof.
  intros bits. unfold bit_to_bytes. destruct (bits mod 8 =? 0) eqn:E; cbn [negb].
  - destruct (truediv8_int bits); split; intros H; try discriminate; lia.
  - split; [intros _; lia|reflexivity].
Qed.
