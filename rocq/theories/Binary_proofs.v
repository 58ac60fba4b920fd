(** * Proofs: binary images *)
From Coq Require Import QArith Qabs Permutation ZifyBool ZifyNat ZifyN Lia.
From Verif Require Import Base PyNum PyStr Ast Size Processor Bundle Sorter CCommon GenBinary Main Lib_proofs
  Spec_Enum Enum_proofs Spec_Grammar Spec_Num Num_proofs Spec_Check Check_proofs Spec_Bundle Bundle_proofs
  Reject_proofs Spec_Size Accept_proofs Size_proofs Field_proofs Spec_Layout Layout_proofs Spec_Ieee Ieee_proofs
  Spec_Binary Spec_Gen Gen_proofs Cdata_proofs Run_proofs Files_proofs Disk_proofs Cfs_proofs Order_proofs.
Open Scope Z_scope.

(** ** Bytes *)

Lemma le_bytes_length : forall n z, length (le_bytes n z) = n.
Proof. induction n as [|n IH]; intros z; simpl; [reflexivity|rewrite IH; reflexivity]. Qed.

Lemma le_bytes_byte : forall n z, Forall is_byte (le_bytes n z).
Proof.
  induction n as [|n IH]; intros z; cbn [le_bytes]; [constructor|]. constructor; [|apply IH].
  apply Z.mod_pos_bound. lia.
Qed.

Lemma le_bytes_number : forall n z, le_number (le_bytes n z) = z mod 2 ^ (8 * Z.of_nat n).
Proof.
  induction n as [|n IH]; intros z; cbn [le_bytes le_number]; [rewrite Z.mod_1_r; reflexivity|].
  rewrite IH. replace (8 * Z.of_nat (S n)) with (8 + 8 * Z.of_nat n) by lia. rewrite Z.pow_add_r by lia.
  change (2 ^ 8) with 256. rewrite Z.rem_mul_r by (try apply Z.pow_nonzero; lia). reflexivity.
Qed.

Lemma order_length : forall e l, length (order_bytes e l) = length l.
Proof. intros [] l; simpl; [reflexivity|apply rev_length]. Qed.

Lemma order_byte : forall e l, Forall is_byte l -> Forall is_byte (order_bytes e l).
Proof. intros [] l H; simpl; [exact H|apply Forall_rev; exact H]. Qed.

Lemma order_number : forall e l, number_of e (order_bytes e l) = le_number l.
Proof. intros [] l; unfold number_of; simpl; [reflexivity|rewrite rev_involutive; reflexivity]. Qed.

Lemma int_in_range_fits : forall s n z, int_in_range s n z = true <-> fits s (8 * Z.of_nat n) z.
Proof. intros s n z. unfold int_in_range, fits. destruct s; lia. Qed.

Lemma int_bytes_image : forall e s n z, (0 < n)%nat -> fits s (8 * Z.of_nat n) z ->
  int_image e s (8 * Z.of_nat n) z (order_bytes e (le_bytes n z)).
Proof.
  intros e s n z Hn F. unfold int_image. rewrite order_length, le_bytes_length, order_number, le_bytes_number.
  split; [reflexivity|]. split; [apply order_byte; apply le_bytes_byte|].
  set (w := 8 * Z.of_nat n) in *. assert (W : 1 <= w) by lia. clearbody w.
  assert (P : 2 ^ w = 2 * 2 ^ (w - 1)) by (rewrite <- Z.pow_succ_r by lia; f_equal; lia).
  assert (P' : 0 < 2 ^ (w - 1)) by (apply Z.pow_pos_nonneg; lia).
  destruct s; unfold fits in F; [|apply Z.mod_small; lia]. unfold two_complement. destruct (Z.ltb_spec z 0).
  - assert (M : z mod 2 ^ w = z + 2 ^ w) by (rewrite <- (Z.mod_add z 1) by lia; rewrite Z.mul_1_l; apply Z.mod_small; lia).
    rewrite M. destruct (Z.ltb_spec (z + 2 ^ w) (2 ^ (w - 1))); lia.
  - rewrite Z.mod_small by lia. destruct (Z.ltb_spec z (2 ^ (w - 1))); lia.
Qed.

(** ** Packing *)

Definition format_of (enc : encoding) : option format :=
  match enc with
  | EInt s w => FORMAT (if s then A_INT else A_UINT) (w / 8)
  | ESingle => Some F_f
  | EDouble => Some F_d
  end.

Lemma pack_int : forall e s w f v, In w [8; 16; 32; 64] -> format_of (EInt s w) = Some f ->
  match int_value v with
  | Some z => (fits s w z -> exists b, pack e f v = Ok b /\ int_image e s w z b)
              /\ (~ fits s w z -> pack e f v = Err StructErr)
  | None => pack e f v = Err StructErr
  end.
Proof.
  intros e s w f v Hw Hf.
  assert (X : exists n, int_format f = Some (s, n) /\ w = 8 * Z.of_nat n /\ (0 < n)%nat).
  { destruct Hw as [<-|[<-|[<-|[<-|[]]]]]; destruct s; cbn in Hf; injection Hf as <-; cbn; eexists; (split; [reflexivity|split; [reflexivity|lia]]). }
  destruct X as (n & Ef & -> & Hn). unfold pack. rewrite Ef. destruct v as [z|x|b|w]; cbn [int_value]; try reflexivity.
  - split; intros F.
    + rewrite (proj2 (int_in_range_fits s n z) F). eexists. split; [reflexivity|]. apply int_bytes_image; assumption.
    + destruct (int_in_range s n z) eqn:E; [|reflexivity]. exfalso. apply F. apply int_in_range_fits. exact E.
  - assert (F : fits s (8 * Z.of_nat n) (if b then 1 else 0)).
    { assert (2 ^ 7 <= 2 ^ (8 * Z.of_nat n - 1)) by (apply Z.pow_le_mono_r; lia).
      assert (2 ^ 8 <= 2 ^ (8 * Z.of_nat n)) by (apply Z.pow_le_mono_r; lia).
      change (2 ^ 7) with 128 in *. change (2 ^ 8) with 256 in *. unfold fits. destruct s, b; lia. }
    split; [|tauto]. intros _. eexists. split; [reflexivity|]. apply int_bytes_image; assumption.
Qed.

Lemma as_double_real : forall v d, as_double v = Some d -> real_value v d.
Proof.
  intros v d H. destruct v as [z|x|b|w]; cbn [as_double] in H.
  - destruct (double_of_Z_spec _ _ H) as (V & s & m & e & -> & N & Sg). apply real_int with z; auto.
    destruct (Z.ltb_spec (Z.abs z) (2 ^ 1024 - 2 ^ 970)) as [L|L]; [exact L|]. apply double_of_Z_none in L. congruence.
  - injection H as <-. constructor.
  - destruct (double_of_Z_spec _ _ H) as (V & s & m & e & -> & N & Sg). apply real_int with (if b then 1 else 0); auto.
    destruct b; reflexivity.
  - discriminate.
Qed.

Lemma real_as_double : forall v d, real_value v d -> exists d', as_double v = Some d'.
Proof.
  intros v d H. destruct H as [f|v z s m e Hv L _ _ _]; [exists (fval f); reflexivity|].
  assert (X : exists d', double_of_Z z = Some d').
  { destruct (double_of_Z z) as [d'|] eqn:E; [eauto|]. apply double_of_Z_none in E. exfalso. exact (Zle_not_lt _ _ E L). }
  destruct v; cbn [int_value] in Hv; try discriminate; injection Hv as <-; exact X.
Qed.

Lemma pack_single : forall e v,
  match as_double v with
  | Some d => (too_large d -> pack e F_f v = Err OverflowErr)
              /\ (~ too_large d -> exists b, pack e F_f v = Ok b /\ single_image e d b)
  | None => pack e F_f v = Err StructErr
  end.
Proof.
  intros e v. unfold pack. cbn [int_format]. destruct (as_double v) as [d|]; [|reflexivity]. split.
  - intros T. destruct d as [s m x|s]; [|destruct T]. apply bits32_overflow in T. rewrite T. reflexivity.
  - intros T. destruct (bits32 d) as [p|] eqn:E.
    + eexists. split; [reflexivity|]. assert (R := bits32_range _ _ E).
      assert (N : number_of e (order_bytes e (le_bytes 4 p)) = p).
      { rewrite order_number, le_bytes_number. apply Z.mod_small. exact R. }
      unfold single_image. rewrite N, order_length, le_bytes_length.
      split; [reflexivity|]. split; [apply order_byte; apply le_bytes_byte|].
      destruct d as [s m x|s]; [apply bits32_nearest; exact E|apply bits32_inf; exact E].
    + exfalso. apply T. destruct d as [s m x|s]; [apply bits32_overflow in E; exact E|discriminate].
Qed.

Lemma pack_double : forall e v,
  match as_double v with
  | Some d => valid_double d = true -> exists b, pack e F_d v = Ok b /\ double_image e d b
  | None => pack e F_d v = Err StructErr
  end.
Proof.
  intros e v. unfold pack. cbn [int_format]. destruct (as_double v) as [d|]; [|reflexivity].
  intros V. eexists. split; [reflexivity|]. destruct (bits64_exact d V) as (R & D).
  assert (N : number_of e (order_bytes e (le_bytes 8 (bits64 d))) = bits64 d).
  { rewrite order_number, le_bytes_number. apply Z.mod_small. exact R. }
  unfold double_image. rewrite N, order_length, le_bytes_length.
  split; [reflexivity|]. split; [apply order_byte; apply le_bytes_byte|exact D].
Qed.

Lemma pack_image : forall e enc f v b, format_of enc = Some f ->
  (forall s w, enc = EInt s w -> In w [8; 16; 32; 64]) -> wval_ok v = true -> pack e f v = Ok b -> image e enc v b.
Proof.
  intros e enc f v b Hf Hw Hv H. destruct enc as [s w| |]; unfold image.
  - assert (P := pack_int e s w f v (Hw s w eq_refl) Hf). destruct (int_value v) as [z|]; [|congruence].
    destruct P as (P1 & P2). assert (F : fits s w z \/ ~ fits s w z) by (unfold fits; destruct s; lia).
    destruct F as [F|F]; [|rewrite (P2 F) in H; discriminate]. destruct (P1 F) as (b' & E & I). rewrite E in H. injection H as <-. eauto.
  - injection Hf as <-. assert (P := pack_single e v). destruct (as_double v) as [d|] eqn:E; [|congruence].
    destruct P as (P1 & P2). exists d. split; [apply as_double_real; exact E|].
    assert (T : too_large d \/ ~ too_large d).
    { destruct d as [s m x|s]; [|right; intros []]. unfold too_large. destruct (Qlt_le_dec (Qabs (qval s m x)) single_overflow) as [L|L].
      - right. apply Qlt_not_le. exact L.
      - left. exact L. }
    destruct T as [T|T]; [rewrite (P1 T) in H; discriminate|]. split; [exact T|].
    destruct (P2 T) as (b' & E' & I). rewrite E' in H. injection H as <-. exact I.
  - injection Hf as <-. assert (P := pack_double e v). destruct (as_double v) as [d|] eqn:E; [|congruence].
    exists d. split; [apply as_double_real; exact E|].
    assert (V : valid_double d = true).
    { destruct v as [z|x|bb|w]; cbn [as_double] in E; try discriminate.
      - apply (double_of_Z_spec _ _ E).
      - injection E as <-. cbn [wval_ok] in Hv. apply andb_prop in Hv. apply Hv.
      - apply (double_of_Z_spec _ _ E). }
    destruct (P V) as (b' & E' & I). rewrite E' in H. injection H as <-. exact I.
Qed.

(** ** C types *)

Lemma bit_to_bytes_low : forall w n, bit_to_bytes w = Ok n -> In n [1; 2; 4; 8] -> w = 8 * n.
Proof.
  intros w n H Hn. destruct (Z.le_gt_cases (Z.abs w) (2 ^ 56)) as [L|L].
  - unfold bit_to_bytes in H. destruct (w mod 8 =? 0) eqn:M; cbn [negb] in H; [|discriminate].
    destruct (bit_to_bytes_small w ltac:(lia) ltac:(lia)) as (n' & E & <-). unfold bit_to_bytes in E. rewrite M in E. cbn [negb] in E.
    rewrite E in H. injection H as ->. reflexivity.
  - exfalso. unfold bit_to_bytes in H. destruct (negb _); [discriminate|]. unfold truediv8_int in H.
    set (k := Z.max 0 (Z.log2 (Z.abs w) + 1 - 53)) in *.
    assert (L2 : 56 <= Z.log2 (Z.abs w)) by (apply Z.log2_le_pow2; lia).
    assert (K : k = Z.log2 (Z.abs w) - 52) by lia. assert (K4 : 4 <= k) by lia.
    assert (B : 2 ^ 52 <= round_ne (Z.abs w) k).
    { eapply Z.le_trans; [|apply round_ne_bounds; lia]. apply Z.div_le_lower_bound; [apply Z.pow_pos_nonneg; lia|].
      rewrite <- Z.pow_add_r by lia. replace (k + 52) with (Z.log2 (Z.abs w)) by lia. apply Z.log2_spec. lia. }
    assert (B2 : 2 ^ 52 * 2 ^ 4 <= round_ne (Z.abs w) k * 2 ^ k).
    { apply Z.mul_le_mono_nonneg; [lia|exact B|lia|]. apply Z.pow_le_mono_r; lia. }
    set (r := round_ne (Z.abs w) k * 2 ^ k) in *. clearbody r. destruct (_ <=? r); [discriminate|]. injection H as H.
    assert (B3 : 2 ^ 53 <= r / 8) by (apply Z.div_le_lower_bound; lia). change (2 ^ 53) with 9007199254740992 in B3.
    set (q := r / 8) in *. clearbody q. clear B2 B k K K4 L2 L. simpl in Hn. assert (S1 : Z.sgn w = 1 \/ Z.sgn w = 0 \/ Z.sgn w = -1) by (destruct w; cbn; tauto). destruct S1 as [S1|[S1|S1]]; rewrite S1 in H; lia.
Qed.

Lemma posix_names : forall n r, posix_range n = Some r ->
  In n (map fst POSIX_INTEGERS) \/ n = "Float"%string \/ n = "Double"%string.
Proof.
  intros n r H. unfold posix_range, ASN1_POSIX_RANGE, dict_get in H. cbn -[String.eqb] in H.
  repeat match goal with
  | H : context [String.eqb n ?s] |- _ => destruct (String.eqb_spec n s); [subst; cbn; tauto|]
  end. discriminate.
Qed.

Definition C_INT (s : bool) : ctype := if s then A_INT else A_UINT.

Lemma element_named : forall t n, element t = TName n -> type_begin t = None /\ type_end t = None /\ type_name t = n.
Proof.
  intros t n H. assert (X : forall t, element t = TName n -> type_name t = n).
  { induction t0; cbn in *; try discriminate; auto. congruence. }
  destruct t; cbn in H; try discriminate; repeat split; auto.
Qed.

Lemma named_c_type : forall t n, element t = TName n -> is_name_capital n = true ->
  (exists s, In (n, s) POSIX_INTEGERS /\ get_c_type t = Some (C_INT s))
  \/ (n = "Float"%string /\ get_c_type t = Some A_FLOAT) \/ (n = "Double"%string /\ get_c_type t = Some A_DOUBLE)
  \/ (~ In n (map fst POSIX_INTEGERS) /\ n <> "Float"%string /\ n <> "Double"%string /\ get_c_type t = None).
Proof.
  intros t n E Hn. destruct (element_named t n E) as (E1 & E2 & E3). unfold get_c_type, asn1_type. rewrite E1, ?E2, E3. cbn [bind].
  destruct (posix_range n) as [r|] eqn:P.
  - destruct (posix_names n r P) as [H|[->| ->]]; [|tauto|tauto]. left.
    simpl in H. repeat (destruct H as [<-|H]; [eexists; cbn; split; [tauto|reflexivity]|]). destruct H.
  - do 3 right. split; [intros H; simpl in H; repeat (destruct H as [<-|H]; [discriminate|]); destruct H|].
    split; [intros ->; discriminate|]. split; [intros ->; discriminate|].
    assert (K := capital_not_keyword n Hn).
    destruct (String.eqb_spec n "INTEGER") as [->|_]; [exfalso; apply K; simpl; tauto|].
    destruct (String.eqb_spec n "REAL") as [->|_]; [exfalso; apply K; simpl; tauto|].
    destruct (String.eqb_spec n "BOOLEAN") as [->|_]; [exfalso; apply K; simpl; tauto|].
    destruct t; try reflexivity. discriminate.
Qed.

Lemma c_type_cases : forall t c, type_ok t = true -> ranges_ok t -> get_c_type t = Some c ->
  c = A_BOOL \/ c = A_STRING
  \/ (exists b e, t = TInteger (Some (b, e)) /\ b <= e /\ c = C_INT (b <? 0))
  \/ (exists b e, t = TReal (Some (b, e)) /\ c = A_FLOAT /\ abs_at_most (fval b) float_bound /\ abs_at_most (fval e) float_bound)
  \/ (exists b e, t = TReal (Some (b, e)) /\ c = A_DOUBLE /\ ~ (abs_at_most (fval b) float_bound /\ abs_at_most (fval e) float_bound))
  \/ (exists n, element t = TName n).
Proof.
  intros t c Hok Hr H. destruct t as [r|r| | |k n|n t|n].
  - destruct r as [[b e]|]; [|discriminate]. unfold get_c_type in H.
    destruct (real_range_cases b e Hok) as [(D & E)|[(D & A & B & E)|[(D & F1 & F2 & N & E)|(D & N & E)]]]; rewrite E in H; try discriminate;
      injection H as <-; do 3 right; [left|right; left]; eauto 10.
  - destruct r as [[b e]|]; [|discriminate]. assert (L : b <= e) by exact (Forall_inv Hr).
    rewrite get_c_type_integer in H by exact L. injection H as <-. do 2 right; left. exists b, e. repeat split; auto.
    destruct (Z.leb_spec 0 b), (Z.ltb_spec b 0); try lia; reflexivity.
  - discriminate.
  - injection H as <-. auto.
  - destruct k; injection H as <-; auto.
  - destruct (element t) as [r|r| | |k m|m u|m] eqn:E.
    + exfalso. assert (T : type_name t = "REAL"%string) by (clear - E; induction t; cbn in *; try discriminate; auto).
      unfold get_c_type, asn1_type in H. cbn [type_begin type_end type_name] in H. rewrite T in H. discriminate.
    + exfalso. assert (T : type_name t = "INTEGER"%string) by (clear - E; induction t; cbn in *; try discriminate; auto).
      unfold get_c_type, asn1_type in H. cbn [type_begin type_end type_name] in H. rewrite T in H. discriminate.
    + exfalso. assert (T : type_name t = "NULL"%string) by (clear - E; induction t; cbn in *; try discriminate; auto).
      unfold get_c_type, asn1_type in H. cbn [type_begin type_end type_name] in H. rewrite T in H. discriminate.
    + assert (T : type_name t = "BOOLEAN"%string) by (clear - E; induction t; cbn in *; try discriminate; auto).
      unfold get_c_type, asn1_type in H. cbn [type_begin type_end type_name] in H. rewrite T in H. injection H as <-. auto.
    + assert (T : type_name t = string_kind_name k) by (clear - E; induction t; cbn in *; try discriminate; auto; congruence).
      unfold get_c_type, asn1_type in H. cbn [type_begin type_end type_name] in H. rewrite T in H. destruct k; discriminate.
    + exfalso. clear - E. induction t; cbn in *; try discriminate; auto.
    + do 5 right. exists m. exact E.
  - do 5 right. exists n. reflexivity.
Qed.

(** ** Members *)

Section Bundle.
Variables (input : list module) (bun : bundle).
Hypothesis Hg : Forall (fun m => grammatical m = true) input.
Hypothesis Ha : accepted input bun.
Let ds := definitions input.

Lemma member_bits : forall d k fuel w, In d ds -> In k (members_of d) -> member_size fuel (all_defs bun) (m_type k) = Ok w ->
  forall w', bit_size ds (m_type k) w' <-> w' = w.
Proof.
  intros d k fuel w Hd Hk H w'. destruct fuel as [|fuel]; [discriminate|].
  destruct (accepted_same _ _ Ha) as (_ & _ & Hu). rewrite (same_names_defs _ _ Ha) in Hu. fold ds in Hu.
  assert (U : forall x y, In x ds -> In y ds -> def_name x = def_name y -> x = y).
  { intros x y Hx Hy E. exact (NoDup_map_inj _ _ def_name _ _ _ Hu Hx Hy E). }
  destruct (member_size_step input bun Hg Ha d k fuel Hd Hk) as [(n & c & l & Et & Hl & E)|(NN & _ & E)].
  - rewrite E in H. assert (K := known_sequence input _ _ _ Hl). split.
    + intros [L|(n' & c' & l' & ls & Et' & Hl' & L & ->)].
      * exfalso. rewrite Et in L. inversion L as [? ? NT|? ? ? ? Hi|? ? ? ? Hi|? ? Hi]; subst.
        -- apply NT. eexists; reflexivity.
        -- discriminate (U _ _ Hi Hl eq_refl).
        -- discriminate (U _ _ Hi Hl eq_refl).
        -- apply Hi. change n with (def_name (DSequence n c l)). apply in_map. exact Hl.
      * rewrite Et in Et'. injection Et' as <-. assert (X := U _ _ Hl Hl' eq_refl). injection X as <- <-.
        destruct (sequence_size_complete input bun Hg Ha _ _ L K) as (F & HF). specialize (HF _ (Nat.le_max_l F fuel)).
        rewrite (sequence_size_more _ _ _ _ _ (Nat.le_max_r F fuel) H) in HF by discriminate. congruence.
    + intros ->. right. destruct (sequence_size_sound input bun Hg Ha _ _ _ K H) as (ls & L & ->). exists n, c, l, ls. auto.
  - split.
    + intros [L|(n' & c' & l' & ls & Et' & Hl' & L & ->)].
      * apply E in L. congruence.
      * exfalso. apply NN. exists n', c', l'. auto.
    + intros ->. left. apply E. exact H.
Qed.

Lemma format_bytes : forall c n f, FORMAT c n = Some f -> In n [1; 2; 4; 8].
Proof.
  intros c n f H. destruct c; cbn [FORMAT] in H;
    repeat match goal with H : context [n =? ?x] |- _ => destruct (Z.eqb_spec n x); [subst; simpl; tauto|] end; discriminate.
Qed.

Definition member_spec (t : asn_type) (w : Z) : spec := mkspec (get_c_type t) w (type_name t).

Lemma C_INT_eqb : forall s, C_INT s <> A_BOOL /\ C_INT s <> A_STRING.
Proof. intros []; split; discriminate. Qed.

(** From the model to the specification. *)
Lemma format_encoding : forall d k fuel w c n f, In d ds -> In k (members_of d) ->
  member_size fuel (all_defs bun) (m_type k) = Ok w -> get_c_type (m_type k) = Some c -> c <> A_BOOL -> c <> A_STRING ->
  bit_to_bytes w = Ok n -> FORMAT c n = Some f ->
  exists enc, encoded_as ds (m_type k) enc /\ format_of enc = Some f /\ (forall s w, enc = EInt s w -> In w [8; 16; 32; 64]).
Proof.
  intros d k fuel w c n f Hd Hk Hs Hc Nb Ns Hb Hf.
  assert (Hv := accepted_modules_valid _ _ Hg Ha). destruct (definitions_types input d k Hg Hv Hd Hk) as (Hok & Hr & Hn).
  assert (B := member_bits _ _ _ _ Hd Hk Hs). assert (In8 := format_bytes _ _ _ Hf). assert (Ew := bit_to_bytes_low _ _ Hb In8).
  assert (Iw : In w [8; 16; 32; 64]) by (simpl in In8 |- *; lia).
  assert (Dw : w / 8 = n) by (rewrite Ew, Z.mul_comm; apply Z.div_mul; lia).
  assert (NTI : forall r, ~ is_type_name (TInteger r)) by (intros r (x & E); discriminate).
  assert (NTR : forall r, ~ is_type_name (TReal r)) by (intros r (x & E); discriminate).
  destruct (c_type_cases _ _ Hok Hr Hc) as [->|[->|[(b & e & Et & L & ->)|[(b & e & Et & -> & A1 & A2)|[(b & e & Et & -> & N)|(m & Em)]]]]]; try congruence.
  - assert (LS : leaf_size ds (m_type k) w).
    { destruct (proj2 (B w) eq_refl) as [X|(x & ? & ? & ? & E & _)]; [exact X|congruence]. }
    rewrite Et in *. assert (VS : value_size (TInteger (Some (b, e))) w) by (inversion LS; assumption).
    exists (EInt (b <? 0) w). split; [|split].
    + inversion VS; subst; [destruct (Z.ltb_spec b 0); [lia|]; apply enc_unsigned; assumption|].
      destruct (Z.ltb_spec b 0); [|lia]. apply enc_signed; assumption.
    + cbn [format_of]. rewrite Dw. exact Hf.
    + intros s w0 E. injection E as <- <-. exact Iw.
  - exists ESingle. split; [rewrite Et; apply enc_single; assumption|]. split; [|discriminate].
    cbn [FORMAT] in Hf. destruct (n =? 4); [exact Hf|discriminate].
  - exists EDouble. split; [rewrite Et; apply enc_double; assumption|]. split; [|discriminate].
    cbn [FORMAT] in Hf. destruct (n =? 8); [exact Hf|discriminate].
  - assert (Hm : is_name_capital m = true).
    { clear - Em Hok. induction (m_type k); cbn in *; try discriminate; auto. injection Em as ->. exact Hok. }
    destruct (named_c_type _ _ Em Hm) as [(s & P & E)|[(-> & E)|[(-> & E)|(_ & _ & _ & E)]]]; [| | |congruence]; rewrite E in Hc; injection Hc as <-.
    + exists (EInt s w). split; [eapply enc_posix; try eassumption; apply B; reflexivity|]. split; [cbn [format_of]; rewrite Dw; exact Hf|].
      intros s0 w0 E0. injection E0 as <- <-. exact Iw.
    + exists ESingle. cbn [FORMAT] in Hf. destruct (Z.eqb_spec n 4) as [->|]; [|discriminate]. split; [|split; [exact Hf|discriminate]].
      apply enc_float; [exact Em|]. apply B. lia.
    + exists EDouble. cbn [FORMAT] in Hf. destruct (Z.eqb_spec n 8) as [->|]; [|discriminate]. split; [|split; [exact Hf|discriminate]].
      apply enc_double_name; [exact Em|]. apply B. lia.
Qed.

(** And back. *)
Lemma encoding_format : forall d k fuel w enc, In d ds -> In k (members_of d) ->
  member_size fuel (all_defs bun) (m_type k) = Ok w -> encoded_as ds (m_type k) enc ->
  exists f, format_of enc = Some f /\ forall e v, leaf_bytes (Some e) (member_spec (m_type k) w) v = let* b := pack e f v in Ok [b].
Proof.
  intros d k fuel w enc Hd Hk Hs HE.
  assert (Hv := accepted_modules_valid _ _ Hg Ha). destruct (definitions_types input d k Hg Hv Hd Hk) as (Hok & Hr & Hn).
  assert (B := member_bits _ _ _ _ Hd Hk Hs).
  assert (X : forall t, t = m_type k -> ~ is_type_name t -> forall x, value_size t x -> w = x).
  { intros t -> NT x Vx. symmetry. apply B. left. apply leaf_value; assumption. }
  assert (NTI : forall r, ~ is_type_name (TInteger r)) by (intros r (x & E); discriminate).
  assert (NTR : forall r, ~ is_type_name (TReal r)) by (intros r (x & E); discriminate).
  assert (W8 : forall x, In x [8; 16; 32; 64] -> exists n, bit_to_bytes x = Ok n /\ x / 8 = n).
  { intros x Hx. simpl in Hx. repeat (destruct Hx as [<-|Hx]; [eexists; split; vm_compute; reflexivity|]). destruct Hx. }
  assert (FI : forall s x, In x [8; 16; 32; 64] -> exists f, FORMAT (C_INT s) (x / 8) = Some f).
  { intros s x Hx. simpl in Hx. repeat (destruct Hx as [<-|Hx]; [destruct s; eexists; vm_compute; reflexivity|]). destruct Hx. }
  unfold leaf_bytes, member_spec. cbn [sp_ctype sp_bits].
  assert (INT : forall s x, In x [8; 16; 32; 64] -> w = x -> get_c_type (m_type k) = Some (C_INT s) ->
    exists f, format_of (EInt s x) = Some f /\ forall e v, 
      match get_c_type (m_type k) with None => Err NotImplementedErr | Some c =>
      let* byte_size := bit_to_bytes w in let* _ := assert (match c with A_BOOL | A_STRING => false | _ => true end) NotImplementedErr in
      match FORMAT c byte_size with None => Err KeyErr | Some f => let* b := pack e f v in Ok [b] end end = let* b := pack e f v in Ok [b]).
  { intros s x Hx -> G. destruct (FI s x Hx) as (f & Ef). destruct (W8 x Hx) as (n & En & Dn). exists f. split; [exact Ef|].
    intros e v. rewrite G, En. cbn [bind]. rewrite <- Dn, Ef. destruct s; reflexivity. }
  destruct HE as [b e x Hb Lw Hx|b e x Hb Sm|b e A1 A2|b e N|t n s x Et P Bs Hx|t Et Bs|t Et Bs].
  - apply INT; [exact Hx|apply (X _ eq_refl (NTI _)); constructor; assumption|].
    rewrite get_c_type_integer by exact (Forall_inv Hr). destruct (Z.leb_spec 0 b); [reflexivity|lia].
  - destruct (Sm) as (Hx & _). apply INT; [exact Hx|apply (X _ eq_refl (NTI _)); apply size_signed; assumption|].
    rewrite get_c_type_integer by exact (Forall_inv Hr). destruct (Z.leb_spec 0 b); [lia|reflexivity].
  - assert (w = 32) as -> by (apply (X _ eq_refl (NTR _)); constructor; assumption).
    exists F_f. split; [reflexivity|]. intros e0 v. unfold get_c_type.
    destruct (real_range_cases b e Hok) as [(D & E)|[(D & A & B' & E)|[(D & F1 & F2 & N & E)|(D & N & E)]]]; rewrite E; try tauto.
    + exfalso. apply D. apply (Forall_inv Hr).
    + exfalso. apply N. assert (Y := Forall_inv Hr). simpl in Y. tauto.
  - assert (w = 64) as -> by (apply (X _ eq_refl (NTR _)); constructor; assumption).
    exists F_d. split; [reflexivity|]. intros e0 v. unfold get_c_type.
    destruct (real_range_cases b e Hok) as [(D & E)|[(D & A & B' & E)|[(D & F1 & F2 & N' & E)|(D & N' & E)]]]; rewrite E; try tauto.
    + exfalso. apply D. apply (Forall_inv Hr).
    + exfalso. apply N'. assert (Y := Forall_inv Hr). simpl in Y. tauto.
  - assert (Hm : is_name_capital n = true).
    { clear - Et Hok. induction t; cbn in *; try discriminate; auto. injection Et as ->. exact Hok. }
    apply INT; [exact Hx|symmetry; apply B; exact Bs|].
    destruct (named_c_type _ _ Et Hm) as [(s' & P' & E)|[(-> & E)|[(-> & E)|(NP & _ & _ & E)]]].
    + rewrite E. f_equal. f_equal. simpl in P, P'.
      repeat (destruct P as [P|P]; [injection P as <- <-; repeat (destruct P' as [P'|P']; [try discriminate; injection P' as ?; congruence|]); destruct P'|]); destruct P.
    + exfalso. simpl in P. repeat (destruct P as [P|P]; [discriminate P|]). exact P.
    + exfalso. simpl in P. repeat (destruct P as [P|P]; [discriminate P|]). exact P.
    + exfalso. apply NP. apply (in_map fst) in P. exact P.
  - apply B in Bs. subst w. exists F_f. split; [reflexivity|]. intros e v.
    destruct (named_c_type _ _ Et eq_refl) as [(s' & P' & E)|[(_ & E)|[(F & E)|(NP & F & _ & E)]]]; [|rewrite E; reflexivity|discriminate|congruence].
    exfalso. simpl in P'. repeat (destruct P' as [P'|P']; [discriminate P'|]). exact P'.
  - apply B in Bs. subst w. exists F_d. split; [reflexivity|]. intros e v.
    destruct (named_c_type _ _ Et eq_refl) as [(s' & P' & E)|[(F & E)|[(_ & E)|(NP & _ & F & E)]]]; [|discriminate|rewrite E; reflexivity|congruence].
    exfalso. simpl in P'. repeat (destruct P' as [P'|P']; [discriminate P'|]). exact P'.
Qed.
End Bundle.

(** ** Clauses *)

Lemma member_specs_get : forall fuel defs ms d k, member_specs fuel defs ms = Ok d ->
  match dict_get k d with
  | Some sp => exists x w, last_plain k ms x /\ member_size fuel defs (m_type x) = Ok w /\ sp = member_spec (m_type x) w
  | None => forall x, In x ms -> m_key x = k -> m_with x <> None
  end.
Proof.
  intros fuel defs. induction ms as [|m ms IH]; intros d k H; cbn [member_specs] in H.
  - injection H as <-. intros x [].
  - destruct (m_with m) as [w|] eqn:Ew.
    + specialize (IH d k H). destruct (dict_get k d) as [sp|].
      * destruct IH as (x & w' & (a & b & -> & E) & F). exists x, w'. split; [|exact F]. exists (m :: a), b. split; [reflexivity|exact E].
      * intros x [<-|Hx]; [congruence|apply IH; exact Hx].
    + apply bind_ok in H. destruct H as (s & Hs & H). apply bind_ok in H. destruct H as (rest & Hr & H). injection H as <-.
      specialize (IH rest k Hr). cbn [dict_get]. destruct (dict_get k rest) as [sp|].
      * destruct IH as (x & w' & (a & b & -> & E) & F). exists x, w'. split; [|exact F]. exists (m :: a), b. split; [reflexivity|exact E].
      * destruct (String.eqb_spec k (m_key m)) as [->|N].
        -- exists m, s. split; [|split; [exact Hs|reflexivity]]. exists [], ms. repeat split; auto.
        -- intros x [<-|Hx]; [congruence|apply IH; exact Hx].
Qed.

Lemma sequence_specs_get : forall fuel defs l specs n d, sequence_specs fuel defs l = Ok specs -> dict_get n specs = Some d ->
  exists c ms, In (DSequence n c ms) l /\ member_specs fuel defs ms = Ok d.
Proof.
  intros fuel defs. induction l as [|x l IH]; intros specs n d H G; cbn [sequence_specs] in H; [injection H as <-; discriminate|].
  assert (X : forall specs, sequence_specs fuel defs l = Ok specs -> dict_get n specs = Some d ->
    exists c ms, In (DSequence n c ms) (x :: l) /\ member_specs fuel defs ms = Ok d).
  { intros s Hs Gs. destruct (IH s n d Hs Gs) as (c & ms & Hi & E). exists c, ms. split; [right; exact Hi|exact E]. }
  destruct x as [n' c' ms'|n' c' ms'|n' c' ms'|n' t' c']; try (apply (X specs H G)).
  apply bind_ok in H. destruct H as (s & Hs & H). apply bind_ok in H. destruct H as (rest & Hr & H). injection H as <-.
  cbn [dict_get] in G. destruct (dict_get n rest) as [d'|] eqn:E.
  - injection G as <-. apply (X rest Hr E).
  - destruct (String.eqb_spec n n') as [->|]; [|discriminate]. injection G as <-. exists c', ms'. split; [left; reflexivity|exact Hs].
Qed.

Definition item_bytes (e : option endianness) (specs : list (string * list (string * spec))) (tname : string) (i : witem)
  : result (list bytes) :=
  match i with
  | WI k v _ =>
      match dict_get tname specs with
      | None => Err KeyErr
      | Some d =>
          match dict_get k d with
          | None => Err KeyErr
          | Some sp => match v with
                       | VWith w' => clause_bytes e specs (sp_type sp) w'
                       | _ => leaf_bytes e sp v
                       end
          end
      end
  end.

Fixpoint items_bytes (e : option endianness) specs tname (l : list witem) : result (list bytes) :=
  match l with
  | [] => Ok []
  | i :: r => let* bs := item_bytes e specs tname i in let* rest := items_bytes e specs tname r in Ok (bs ++ rest)%list
  end.

Lemma clause_bytes_eq : forall e specs tname c l, clause_bytes e specs tname (WC c l) = items_bytes e specs tname l.
Proof.
  intros e specs tname c l. cbn [clause_bytes]. induction l as [|[k v cm] l IH]; [reflexivity|].
  cbn [items_bytes item_bytes]. rewrite <- IH. reflexivity.
Qed.

Section Clauses.
Variables (input : list module) (bun : bundle).
Hypothesis Hg : Forall (fun m => grammatical m = true) input.
Hypothesis Ha : accepted input bun.
Let ds := definitions input.
Variables (mds mdi : list definition) (fuel : nat) (specs : list (string * list (string * spec))) (e : endianness).
Hypothesis Hm : forall n c ms, In (DSequence n c ms) mds -> In (DSequence n c ms) ds.
Hypothesis Hmi : forall n c ms, In (DSequence n c ms) mds -> In (DSequence n c ms) mdi.
Hypothesis Hs : sequence_specs fuel (all_defs bun) mds = Ok specs.

Lemma leaf_sound : forall d x w v bs, In d ds -> In x (members_of d) -> member_size fuel (all_defs bun) (m_type x) = Ok w ->
  wval_ok v = true -> leaf_bytes (Some e) (member_spec (m_type x) w) v = Ok bs ->
  exists enc, encoded_as ds (m_type x) enc /\ image e enc v (concat bs).
Proof.
  intros d x w v bs Hd Hx Hw Hv H. unfold leaf_bytes, member_spec in H. cbn [sp_ctype sp_bits] in H.
  destruct (get_c_type (m_type x)) as [c|] eqn:Hc; [|discriminate].
  apply bind_ok in H. destruct H as (n & Hn & H).
  assert (Nb : c <> A_BOOL /\ c <> A_STRING) by (destruct c; try discriminate; split; discriminate).
  assert (H' : match FORMAT c n with None => Err KeyErr | Some f => let* b := pack e f v in Ok [b] end = Ok bs) by (destruct c; try discriminate; exact H).
  clear H. destruct (FORMAT c n) as [f|] eqn:Ef; [|discriminate]. apply bind_ok in H'. destruct H' as (b & Hb & H'). injection H' as <-.
  destruct (format_encoding input bun Hg Ha _ _ _ _ _ _ _ Hd Hx Hw Hc (proj1 Nb) (proj2 Nb) Hn Ef) as (enc & E1 & E2 & E3).
  exists enc. split; [exact E1|]. cbn [concat]. rewrite app_nil_r. eapply pack_image; eassumption.
Qed.

Lemma sequence_name : forall n c ms t, In (DSequence n c ms) ds -> type_ok t = true -> type_name t = n -> element t = TName n.
Proof.
  intros n c ms t Hi Hok E. eapply sequence_type; [exact Hok|exact Hi| |exact E].
  intros d Hd. eapply definitions_capital; eassumption.
Qed.

Lemma clause_sound : forall w t bs, wcomps_ok w = true -> type_ok t = true ->
  clause_bytes (Some e) specs (type_name t) w = Ok bs -> clause_image ds mdi e t w (concat bs).
Proof.
  induction w as [c l IH] using clause_ind. intros t bs Hok Ht H. rewrite clause_bytes_eq in H.
  assert (Hit := wcomps_ok_items _ Hok). cbn [wc_items] in Hit.
  assert (Hne : exists i r, l = i :: r).
  { destruct l as [|i r]; [|eauto]. cbn in Hok. rewrite andb_false_r in Hok. discriminate. }
  destruct (dict_get (type_name t) specs) as [d|] eqn:Ed.
  2:{ exfalso. destruct Hne as ([k v cm] & r & ->). cbn [items_bytes item_bytes] in H. rewrite Ed in H. discriminate. }
  destruct (sequence_specs_get _ _ _ _ _ _ Hs Ed) as (c' & ms & Hi & Es).
  apply clause_im with (type_name t) c' ms; [eapply sequence_name; [apply Hm; exact Hi|exact Ht|reflexivity]|apply Hmi; exact Hi|].
  clear Hok Hne. revert bs H. induction l as [|[k v cm] l IHl]; intros bs H; cbn [items_bytes item_bytes] in H.
  - injection H as <-. constructor.
  - apply bind_ok in H. destruct H as (b1 & H1 & H). apply bind_ok in H. destruct H as (b2 & H2 & H). injection H as <-.
    rewrite concat_app. rewrite Ed in H1. assert (G := member_specs_get _ _ _ _ k Es). destruct (dict_get k d) as [sp|]; [|discriminate].
    destruct G as (x & w & LP & Hw & ->). assert (Hx : In x ms) by (destruct LP as (a & b & -> & _); apply in_or_app; right; left; reflexivity).
    assert (I2 : items_image ds mdi e ms l (concat b2)).
    { apply IHl; [|inversion Hit; assumption|exact H2]. intros k0 w0 cm0 Hin. apply (IH k0 w0 cm0). right. exact Hin. }
    assert (Hd : In (DSequence (type_name t) c' ms) ds) by (apply Hm; exact Hi).
    assert (Hv : wval_ok v = true).
    { inversion Hit as [|? ? Q _]; subst. cbn in Q. apply andb_prop in Q. destruct Q as (Q & _). apply andb_prop in Q. apply Q. }
    destruct v as [z|f|bb|w'].
    + destruct (leaf_sound _ _ _ _ _ Hd Hx Hw Hv H1) as (enc & E1 & E2). eapply items_leaf; try eassumption. discriminate.
    + destruct (leaf_sound _ _ _ _ _ Hd Hx Hw Hv H1) as (enc & E1 & E2). eapply items_leaf; try eassumption. discriminate.
    + destruct (leaf_sound _ _ _ _ _ Hd Hx Hw Hv H1) as (enc & E1 & E2). eapply items_leaf; try eassumption. discriminate.
    + eapply items_nested; [exact LP| |exact I2]. apply (IH k w' cm); [left; reflexivity|exact Hv| |exact H1].
      assert (Hvd := accepted_modules_valid _ _ Hg Ha). destruct (definitions_types input _ x Hg Hvd Hd Hx) as (Q & _). exact Q.
Qed.
End Clauses.

(** Clauses that name all members in order. *)
Lemma clause_struct : forall ds mds e, NoDup (map def_name mds) -> forall w t b,
  complete_in_order mds t w -> clause_image ds mds e t w b -> struct_image ds mds e t w b.
Proof.
  intros ds mds e ND. induction w as [c l IH] using clause_ind. intros t b C I.
  inversion C as [? n c1 ms ? ? Et Hi Ek Nk Hn]; subst. inversion I as [? n' c2 ms' ? ? ? Et' Hi' II]; subst.
  rewrite Et in Et'. injection Et' as <-. assert (X := NoDup_map_inj _ _ def_name _ _ _ ND Hi Hi' eq_refl). injection X as <- <-.
  apply struct_im with n c1 ms; [exact Et|exact Hi|]. clear C I Hi' Et.
  assert (G : forall suf l b, (forall x, In x suf -> In x ms) ->
    (forall k w cm, In (WI k (VWith w) cm) l -> forall t b, complete_in_order mds t w -> clause_image ds mds e t w b -> struct_image ds mds e t w b) ->
    (forall k w kc x, In (WI k (VWith w) kc) l -> In x ms -> m_key x = k -> complete_in_order mds (m_type x) w) ->
    map wi_key l = map m_key suf -> items_image ds mds e ms l b -> members_image ds mds e suf l b).
  { clear l b IH Ek Hn II. induction suf as [|y suf IHs]; intros l b Sub IH Hn Ek II.
    - destruct l; [|discriminate]. inversion II; subst. constructor.
    - destruct l as [|i l]; [discriminate|]. cbn [map] in Ek. injection Ek as E0 Ek.
      assert (U : forall x k, last_plain k ms x -> m_key y = k -> x = y).
      { intros x k (a & b' & -> & Ex & _) Ey. apply (NoDup_map_inj _ _ m_key _ _ _ Nk); [apply in_or_app; right; left; reflexivity|apply Sub; left; reflexivity|congruence]. }
      inversion II as [|? k v cm r x enc b1 b2 LP NV EA IM IR|? k w cm r x b1 b2 LP CI IR]; subst.
      + cbn [wi_key] in E0. subst k. assert (x = y) by (eapply U; [exact LP|reflexivity]). subst x.
        eapply members_leaf; try eassumption. apply IHs;
          [intros z Hz; apply Sub; right; exact Hz
          |intros k0 w0 cm0 Hin; apply (IH k0 w0 cm0); right; exact Hin
          |intros k0 w0 cm0 x0 Hin; apply (Hn k0 w0 cm0 x0); right; exact Hin|exact Ek|exact IR].
      + cbn [wi_key] in E0. subst k. assert (x = y) by (eapply U; [exact LP|reflexivity]). subst x.
        eapply members_nested.
        * eapply IH; [left; reflexivity| |exact CI]. eapply Hn; [left; reflexivity|apply Sub; left; reflexivity|reflexivity].
        * apply IHs;
          [intros z Hz; apply Sub; right; exact Hz
          |intros k0 w0 cm0 Hin; apply (IH k0 w0 cm0); right; exact Hin
          |intros k0 w0 cm0 x0 Hin; apply (Hn k0 w0 cm0 x0); right; exact Hin|exact Ek|exact IR]. }
  apply (G ms l b); auto.
Qed.

Lemma image_bytes : forall e enc v b, image e enc v b -> Forall is_byte b.
Proof.
  intros e enc v b H. destruct enc; cbn [image] in H.
  - destruct H as (z & _ & _ & _ & H & _). exact H.
  - destruct H as (d & _ & _ & _ & H & _). exact H.
  - destruct H as (d & _ & _ & H & _). exact H.
Qed.

Lemma clause_image_bytes : forall ds mds e w t b, clause_image ds mds e t w b -> Forall is_byte b.
Proof.
  intros ds mds e. induction w as [c l IH] using clause_ind. intros t b H. inversion H as [? n c2 ms ? ? ? Et Hi II]; subst. clear H Hi Et.
  revert b II. induction l as [|i l IHl]; intros b II; inversion II as [|? k v cm r x enc b1 b2 LP NV EA IM IR|? k w cm r x b1 b2 LP CI IR]; subst.
  - constructor.
  - apply Forall_app. split; [eapply image_bytes; exact IM|]. apply IHl; [|exact IR]. intros k0 w0 cm0 Hin. apply (IH k0 w0 cm0). right. exact Hin.
  - apply Forall_app. split; [eapply IH; [left; reflexivity|exact CI]|]. apply IHl; [|exact IR]. intros k0 w0 cm0 Hin. apply (IH k0 w0 cm0). right. exact Hin.
Qed.

Lemma string_of_bytes_spec : forall b, Forall is_byte b -> byte_string (string_of_bytes b) b.
Proof.
  intros b H. split; [exact H|]. unfold string_of_bytes. rewrite list_ascii_of_string_of_list_ascii, map_map.
  rewrite <- (map_id b) at 2. apply map_ext_in. intros z Hz. rewrite Forall_forall in H. specialize (H _ Hz). unfold is_byte in H.
  rewrite N_ascii_embedding by lia. lia.
Qed.

(** ** From the input to the file *)

Lemma same_module_sequence : forall m m', same_module m m' -> forall n c l,
  In (DSequence n c l) (mod_defs m) <-> In (DSequence n c l) (mod_defs m').
Proof.
  intros m m' (_ & _ & _ & F) n c l. split; intros H.
  - destruct (Forall2_in_l _ _ _ _ _ _ F H) as (d' & Hd' & E). simpl in E. subst d'. exact Hd'.
  - destruct (Forall2_in_r _ _ _ _ _ _ F H) as (d & Hd & E). destruct d; simpl in E; [injection E as -> -> ->; exact Hd|discriminate| |discriminate].
    destruct E as (l' & E & _). discriminate.
Qed.

Lemma filter_last : forall l k w, last_clause l k w -> exists r, filter has_clause l = (r ++ [k])%list.
Proof.
  intros l k w (a & b & -> & Hw & Hb). exists (filter has_clause a). rewrite filter_app. cbn [filter].
  unfold has_clause at 2. rewrite Hw. f_equal. f_equal.
  induction b as [|x b IH]; [reflexivity|]. cbn [filter]. unfold has_clause at 1. rewrite (Hb x) by (left; reflexivity).
  apply IH. intros y Hy. apply Hb. right. exact Hy.
Qed.

Lemma binary_written : forall names fuel input fs fs' e m n c l k w,
  Forall (fun m => grammatical m = true) input -> run fuel (GenerateBinary names (Some e)) input fs = (fs', Ok tt) -> In m input ->
  In (DSequence n c l) (mod_defs m) -> last_clause l k w ->
  exists s b, folder_get fs' (lowerize (c_name n) ++ ".bin") = Some s /\ byte_string s b
    /\ clause_image (definitions input) (mod_defs m) e (m_type k) w b.
Proof.
  intros names fuel input fs fs' e m n c l k w Hg H Hm Hd Hk.
  destruct (run_input_written names (GenerateBinary names (Some e)) fuel input fs fs' m) as (b & bm & fl & C & Hbm & S1 & Hfl & R);
    [right; right; eexists; reflexivity|assumption|assumption|assumption|].
  cbn [module_files] in Hfl. apply bind_ok in Hfl. destruct Hfl as (cd & Hc & E). injection E as <-.
  unfold bin_cdata in Hc. apply module_collects in Hc; [|apply bin_wch_includes].
  destruct Hc as (sorted & css & iss & Hs & F & _ & _ & _ & _ & _ & _ & B).
  assert (P := sorted_perm _ _ _ Hs).
  assert (Nd : NoDup (map def_name sorted)).
  { apply (Permutation_NoDup (Permutation_sym (Permutation_map def_name P))). eapply config_local_nodup; eassumption. }
  assert (Cap : forall d, In d sorted -> is_name_capital (def_name d) = true).
  { intros d Hd'. eapply config_capital; [exact C|]. apply in_all_defs. exists bm. split; [exact Hbm|].
    apply (Permutation_in _ P). exact Hd'. }
  assert (Nl : NoDup (map (fun d => lowerize (c_name (def_name d))) sorted)).
  { clear - Nd Cap. induction sorted as [|d l IH]; simpl; [constructor|]. simpl in Nd. inversion Nd as [|? ? N1 N2]; subst.
    constructor; [|apply IH; [exact N2|intros x Hx; apply Cap; right; exact Hx]].
    intros G. apply in_map_iff in G. destruct G as (x & E & Hx). apply N1.
    apply lower_c_name_inj in E; [|apply Cap; right; exact Hx|apply Cap; left; reflexivity].
    rewrite <- E. apply in_map. exact Hx. }
  destruct (bin_cdata_binary _ _ _ _ _ _ _ F Nl B) as (B' & _).
  assert (Hd' : In (DSequence n c l) sorted).
  { apply (Permutation_in _ (Permutation_sym P)). apply (same_module_sequence _ _ S1). exact Hd. }
  destruct (Forall2_in_l _ _ _ _ _ _ F Hd') as (cs & Hcs & Hh).
  destruct (bin_clause_binary _ _ _ _ _ _ Hh) as (E & _). unfold handled in Hh. cbn [clauses_of def_name] in Hh.
  destruct (filter_last _ _ _ Hk) as (r & Er). rewrite Er in Hh. apply Forall2_app_inv_l in Hh. destruct Hh as (cs1 & cs2 & _ & F2 & ->).
  inversion F2 as [|? ck ? ? Hck F3]; subst. inversion F3; subst. rewrite map_app in E. cbn [map] in E. rewrite last_last in E.
  assert (Ha := config_accepted _ _ _ C).
  assert (Hw : m_with k = Some w) by (destruct Hk as (? & ? & _ & Q & _); exact Q).
  assert (Hkl : In k l) by (destruct Hk as (? & ? & -> & _); apply in_or_app; right; left; reflexivity).
  assert (Hdi : In (DSequence n c l) (definitions input)) by (apply in_flat_map; exists m; split; assumption).
  unfold bin_with_components in Hck. rewrite Hw in Hck. apply bind_ok in Hck. destruct Hck as (specs & Hsp & Hck).
  apply bind_ok in Hck. destruct Hck as (bs & Hbs & Hck). injection Hck as <-. cbn [cd_binary] in E.
  assert (Hvd := accepted_modules_valid _ _ Hg Ha). destruct (definitions_types input _ k Hg Hvd Hdi Hkl) as (Ht & _).
  assert (Hwok : wcomps_ok w = true).
  { rewrite Forall_forall in Hg. assert (Q := grammatical_defs m (Hg m Hm)). rewrite Forall_forall in Q. specialize (Q _ Hd). cbn in Q. apply andb_prop in Q. destruct Q as (_ & Q).
    rewrite forallb_forall in Q. specialize (Q _ Hkl). unfold member_ok in Q. rewrite Hw in Q. apply andb_prop in Q. apply Q. }
  assert (I : clause_image (definitions input) (mod_defs m) e (m_type k) w (concat bs)).
  { eapply (clause_sound input b Hg Ha (mod_defs (bm_mod bm)) (mod_defs m)); try eassumption.
    - intros n0 c0 l0 H0. apply (same_module_sequence _ _ S1) in H0. apply in_flat_map. exists m. auto.
    - intros n0 c0 l0 H0. apply (same_module_sequence _ _ S1) in H0. exact H0. }
  exists (string_of_bytes (concat bs)), (concat bs). split; [|split; [|exact I]].
  - apply R. unfold print_to_file. cbn [is_binary is_stored_data]. apply in_or_app. right. apply in_or_app. right.
    apply in_map_iff. exists (lowerize (c_name n), bs). split; [reflexivity|]. rewrite B'. apply in_flat_map.
    exists (cs1 ++ [mkcdata [] [] [] [] [] "" false false "" [(lowerize (c_name n), bs)]])%list. split; [exact Hcs|]. rewrite E. left. reflexivity.
  - apply string_of_bytes_spec. eapply clause_image_bytes. exact I.
Qed.

(** ** Single components *)

Lemma leaf_integer : forall input bun d k fuel w s w' e v,
  Forall (fun m => grammatical m = true) input -> accepted input bun ->
  In d (definitions input) -> In k (members_of d) -> member_size fuel (all_defs bun) (m_type k) = Ok w ->
  encoded_as (definitions input) (m_type k) (EInt s w') ->
  match int_value v with
  | Some z =>
      (fits s w' z -> exists b, leaf_bytes (Some e) (mkspec (get_c_type (m_type k)) w (type_name (m_type k))) v = Ok [b]
                        /\ int_image e s w' z b)
      /\ (~ fits s w' z -> leaf_bytes (Some e) (mkspec (get_c_type (m_type k)) w (type_name (m_type k))) v = Err StructErr)
  | None => leaf_bytes (Some e) (mkspec (get_c_type (m_type k)) w (type_name (m_type k))) v = Err StructErr
  end.
Proof.
  intros input bun d k fuel w s w' e v Hg Ha Hd Hk Hw HE.
  destruct (encoding_format input bun Hg Ha _ _ _ _ _ Hd Hk Hw HE) as (f & Ef & L). unfold member_spec in L. rewrite L.
  assert (Iw : In w' [8; 16; 32; 64]) by (inversion HE; subst; try assumption; match goal with H : smallest _ _ _ |- _ => apply H end).
  assert (P := pack_int e s w' f v Iw Ef). destruct (int_value v) as [z|]; [|rewrite P; reflexivity].
  destruct P as (P1 & P2). split.
  - intros F. destruct (P1 F) as (b & E & I). exists b. rewrite E. auto.
  - intros F. rewrite (P2 F). reflexivity.
Qed.

Lemma leaf_reversed : forall k v b, leaf_bytes (Some LittleEndian) k v = Ok [b] -> leaf_bytes (Some BigEndian) k v = Ok [rev b].
Proof.
  intros k v b H. unfold leaf_bytes in *. destruct (sp_ctype k) as [c|]; [|discriminate].
  destruct (bit_to_bytes (sp_bits k)) as [n|er|]; cbn [bind] in *; try discriminate.
  destruct (assert _ _); cbn [bind] in *; try discriminate. destruct (FORMAT c n) as [f|]; [|discriminate].
  assert (P : forall x, pack LittleEndian f v = Ok x -> pack BigEndian f v = Ok (rev x)).
  { intros x Hx. unfold pack in *. destruct (int_format f) as [[s m]|].
    - destruct v; try discriminate; [destruct (int_in_range s m z); [|discriminate]|]; injection Hx as <-; reflexivity.
    - destruct (as_double v); [|discriminate]. destruct f; try (injection Hx as <-; reflexivity).
      destruct (bits32 d); [|discriminate]. injection Hx as <-. reflexivity. }
  destruct (pack LittleEndian f v) as [x|er|]; cbn [bind] in H; try discriminate. injection H as <-.
  rewrite (P _ eq_refl). reflexivity.
Qed.

(** A number that is a double or can be rounded to one. *)
Lemma as_double_cases : forall v, (exists d, as_double v = Some d /\ real_value v d) \/ (as_double v = None /\ forall d, ~ real_value v d).
Proof.
  intros v. destruct (as_double v) as [d|] eqn:E; [left; exists d; split; [reflexivity|apply as_double_real; exact E]|].
  right. split; [reflexivity|]. intros d H. apply real_as_double in H. destruct H as (d' & H). congruence.
Qed.

Lemma leaf_single : forall input bun d k fuel w e v,
  Forall (fun m => grammatical m = true) input -> accepted input bun ->
  In d (definitions input) -> In k (members_of d) -> member_size fuel (all_defs bun) (m_type k) = Ok w ->
  encoded_as (definitions input) (m_type k) ESingle ->
  (exists x, real_value v x
     /\ ((too_large x /\ leaf_bytes (Some e) (mkspec (get_c_type (m_type k)) w (type_name (m_type k))) v = Err OverflowErr)
         \/ (~ too_large x /\ exists b, leaf_bytes (Some e) (mkspec (get_c_type (m_type k)) w (type_name (m_type k))) v = Ok [b]
                              /\ single_image e x b)))
  \/ ((forall x, ~ real_value v x)
      /\ leaf_bytes (Some e) (mkspec (get_c_type (m_type k)) w (type_name (m_type k))) v = Err StructErr).
Proof.
  intros input bun d k fuel w e v Hg Ha Hd Hk Hw HE.
  destruct (encoding_format input bun Hg Ha _ _ _ _ _ Hd Hk Hw HE) as (f & Ef & L). unfold member_spec in L. rewrite L.
  injection Ef as <-. assert (P := pack_single e v). destruct (as_double_cases v) as [(x & E & R)|(E & R)]; rewrite E in P.
  - left. exists x. split; [exact R|]. destruct P as (P1 & P2).
    assert (T : too_large x \/ ~ too_large x).
    { destruct x as [s m y|s]; [|right; intros []]. unfold too_large. destruct (Qlt_le_dec (Qabs (qval s m y)) single_overflow) as [Q|Q].
      - right. apply Qlt_not_le. exact Q.
      - left. exact Q. }
    destruct T as [T|T]; [left|right]; (split; [exact T|]).
    + rewrite (P1 T). reflexivity.
    + destruct (P2 T) as (b & Eb & I). exists b. rewrite Eb. auto.
  - right. split; [exact R|]. rewrite P. reflexivity.
Qed.

Lemma leaf_double : forall input bun d k fuel w e v,
  Forall (fun m => grammatical m = true) input -> accepted input bun ->
  In d (definitions input) -> In k (members_of d) -> member_size fuel (all_defs bun) (m_type k) = Ok w ->
  encoded_as (definitions input) (m_type k) EDouble -> wval_ok v = true ->
  (exists x b, real_value v x
     /\ leaf_bytes (Some e) (mkspec (get_c_type (m_type k)) w (type_name (m_type k))) v = Ok [b] /\ double_image e x b)
  \/ ((forall x, ~ real_value v x)
      /\ leaf_bytes (Some e) (mkspec (get_c_type (m_type k)) w (type_name (m_type k))) v = Err StructErr).
Proof.
  intros input bun d k fuel w e v Hg Ha Hd Hk Hw HE Hv.
  destruct (encoding_format input bun Hg Ha _ _ _ _ _ Hd Hk Hw HE) as (f & Ef & L). unfold member_spec in L. rewrite L.
  injection Ef as <-. assert (P := pack_double e v). destruct (as_double_cases v) as [(x & E & R)|(E & R)]; rewrite E in P.
  - left. assert (V : valid_double x = true).
    { destruct v as [z|y|bb|q]; cbn [as_double] in E; try discriminate.
      - apply (double_of_Z_spec _ _ E).
      - injection E as <-. cbn [wval_ok] in Hv. apply andb_prop in Hv. apply Hv.
      - apply (double_of_Z_spec _ _ E). }
    destruct (P V) as (b & Eb & I). exists x, b. rewrite Eb. auto.
  - right. split; [exact R|]. rewrite P. reflexivity.
Qed.

Lemma binary_written_struct : forall names fuel input fs fs' e m n c l k w,
  Forall (fun m => grammatical m = true) input -> run fuel (GenerateBinary names (Some e)) input fs = (fs', Ok tt) -> In m input ->
  In (DSequence n c l) (mod_defs m) -> last_clause l k w -> complete_in_order (mod_defs m) (m_type k) w ->
  exists s b, folder_get fs' (lowerize (c_name n) ++ ".bin") = Some s /\ byte_string s b
    /\ struct_image (definitions input) (mod_defs m) e (m_type k) w b.
Proof.
  intros names fuel input fs fs' e m n c l k w Hg H Hm Hd Hk HC.
  destruct (run_input_written names (GenerateBinary names (Some e)) fuel input fs fs' m) as (b & bm & _ & C & Hbm & S1 & _);
    [right; right; eexists; reflexivity|assumption|assumption|assumption|].
  destruct (binary_written _ _ _ _ _ _ _ _ _ _ _ _ Hg H Hm Hd Hk) as (s & bs & F & B & I).
  exists s, bs. split; [exact F|]. split; [exact B|]. eapply clause_struct; try eassumption.
  assert (Nd := config_local_nodup _ _ _ _ C Hbm). apply same_defined_names in S1. unfold defined_names in S1. rewrite <- S1. exact Nd.
Qed.

Lemma only_clause_written : forall names fuel input fs fs' e m n c a k b w,
  Forall (fun m => grammatical m = true) input -> run fuel (GenerateBinary names (Some e)) input fs = (fs', Ok tt) -> In m input ->
  In (DSequence n c (a ++ k :: b)%list) (mod_defs m) -> m_with k = Some w ->
  (forall x, In x (a ++ b)%list -> m_with x = None) ->
  exists name s bytes, folder_get fs' name = Some s /\ byte_string s bytes
    /\ clause_image (definitions input) (mod_defs m) e (m_type k) w bytes.
Proof.
  intros names fuel input fs fs' e m n c a k b w Hg H Hm Hd Hw Ho. exists (lowerize (c_name n) ++ ".bin")%string.
  eapply binary_written; try eassumption. exists a, b. split; [reflexivity|]. split; [exact Hw|].
  intros y Hy. apply Ho. apply in_or_app. right. exact Hy.
Qed.
