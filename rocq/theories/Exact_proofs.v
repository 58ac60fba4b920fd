(** * Proofs: an image has one sequence of bytes *)
From Coq Require Import ZifyBool ZifyN QArith Qpower Qabs Lqa.
From Verif Require Import Base PyNum PyStr PyFloat Ast CCommon GenBinary Main Spec_Grammar Spec_Num Spec_Check Spec_Bundle Spec_Enum Spec_Size Spec_Layout Spec_Gen Spec_Files
  Spec_Ieee Spec_Binary Spec_Header Spec_Failures Spec_Letters
  Lib_proofs Num_proofs Ieee_proofs Repr_proofs Runs2_proofs Shortest_proofs Check_proofs Field_proofs Gen_proofs Disk_proofs Binary_proofs Failures_proofs Letters_proofs.
Open Scope Z_scope.
Open Scope list_scope.

(** ** The nearest single *)

Definition valid_single (m : N) (e : Z) : Prop :=
  (Z.of_N m < 8388608 /\ e = -149) \/ (8388608 <= Z.of_N m < 16777216 /\ -149 <= e <= 104).

Lemma single_next : forall m e m' e', valid_single m e -> valid_single m' e' -> (mag m e < mag m' e')%Q -> (mag (m + 1) e <= mag m' e')%Q.
Proof.
  intros m e m' e' V V' L. unfold valid_single, mag in *.
  destruct (Z_le_gt_dec e e') as [E|E].
  - apply Qlt_not_le in L. rewrite (scaled_le _ _ _ _ e) in L by lia. rewrite (scaled_le _ _ _ _ e) by lia.
    rewrite Z.sub_diag in *. change (2 ^ 0) with 1 in *. lia.
  - exfalso. apply Qlt_not_le in L. apply L. rewrite (scaled_le _ _ _ _ e') by lia. rewrite Z.sub_diag. change (2 ^ 0) with 1.
    assert (P := pow_ge_2 (e - e') ltac:(lia)). nia.
Qed.
Lemma single_same : forall m e m' e', valid_single m e -> valid_single m' e' -> (mag m e == mag m' e')%Q -> m = m' /\ e = e'.
Proof.
  assert (H : forall m e m' e', valid_single m e -> valid_single m' e' -> e <= e' -> (mag m e == mag m' e')%Q -> m = m' /\ e = e').
  { intros m e m' e' V V' E Q. unfold valid_single, mag in *.
    assert (A : (inject_Z (Z.of_N m) * 2 ^ e <= inject_Z (Z.of_N m') * 2 ^ e')%Q) by lra.
    assert (B : (inject_Z (Z.of_N m') * 2 ^ e' <= inject_Z (Z.of_N m) * 2 ^ e)%Q) by lra.
    rewrite (scaled_le _ _ _ _ e) in A by lia. rewrite (scaled_le _ _ _ _ e) in B by lia. rewrite Z.sub_diag in *. change (2 ^ 0) with 1 in *.
    destruct (Z.eq_dec e e') as [<-|N]; [rewrite Z.sub_diag in *; change (2 ^ 0) with 1 in *; lia|].
    assert (P := pow_ge_2 (e' - e) ltac:(lia)). nia. }
  intros m e m' e' V V' Q. destruct (Z_le_gt_dec e e') as [E|E]; [apply H; assumption|].
  destruct (H m' e' m e V' V ltac:(lia)) as (-> & ->); [symmetry; exact Q|auto].
Qed.

Lemma single_pattern : forall s m e, valid_single m e -> exists b, single_of b = IFin s m e.
Proof.
  intros s m e [(L & ->)|(L & E)].
  - exists ((if s then 2 ^ (23 + 8) else 0) + 0 * 2 ^ 23 + Z.of_N m). unfold single_of. rewrite ieee_fields by lia. cbn [Z.eqb].
    change (0 =? 2 ^ 8 - 1) with false. change (0 =? 0) with true. cbv iota. rewrite N2Z.id. reflexivity.
  - exists ((if s then 2 ^ (23 + 8) else 0) + (e + 150) * 2 ^ 23 + (Z.of_N m - 8388608)). unfold single_of. rewrite ieee_fields by lia.
    change (2 ^ 8 - 1) with 255. replace (e + 150 =? 255) with false by lia. replace (e + 150 =? 0) with false by lia.
    change (2 ^ (8 - 1) - 1) with 127. change (2 ^ 23) with 8388608. f_equal; lia.
Qed.
Lemma single_valid : forall b s m e, single_of b = IFin s m e -> valid_single m e.
Proof.
  intros b s m e H. unfold single_of, ieee_of in H. change (2 ^ 8) with 256 in H. change (2 ^ 23) with 8388608 in H. cbv zeta in H.
  assert (F := Z.mod_pos_bound b 8388608 ltac:(lia)). assert (X := Z.mod_pos_bound (b / 8388608) 256 ltac:(lia)).
  set (x := (b / 8388608) mod 256) in *. set (f := b mod 8388608) in *. clearbody x f.
  change (256 - 1) with 255 in H. change (2 ^ (8 - 1) - 1) with 127 in H.
  destruct (Z.eqb_spec x 255); [destruct (f =? 0); discriminate|].
  destruct (Z.eqb_spec x 0); apply ieee_fin_inj in H; destruct H as (_ & <- & <-); [left|right]; rewrite Z2N.id by lia; lia.
Qed.

Lemma nearest_single_order : forall q s m e m' e', valid_single m e -> valid_single m' e' ->
  nearest single_of q s m e -> nearest single_of q s m' e' -> ~ (mag m e < mag m' e')%Q.
Proof.
  intros q s m e m' e' V V' N N' L.
  assert (CL : forall m e, nearest single_of q s m e -> forall m' e', valid_single m' e' ->
    (Qabs (mag m e - signed s q) <= Qabs (mag m' e' - signed s q))%Q
    /\ ((Qabs (mag m e - signed s q) == Qabs (mag m' e' - signed s q))%Q -> (mag m e == mag m' e')%Q \/ N.even m = true)).
  { clear. intros m e N m' e' V. destruct (single_pattern s _ _ V) as (b & B). destruct (N _ _ _ _ B) as (X & Y).
    rewrite !qval_mag in X. rewrite !qval_mag in Y. split; [exact X|].
    intros E. destruct (Y E) as [Z|Z]; [left|right; exact Z]. unfold qval, mag in *. destruct s; lra. }
  assert (C := CL _ _ N). assert (C' := CL _ _ N'). clear CL N N'. revert C C'. generalize (signed s q) as r. intros r C C'.
  destruct (C _ _ V') as (A & T). destruct (C' _ _ V) as (A' & T').
  assert (E : (Qabs (mag m e - r) == Qabs (mag m' e' - r))%Q) by lra.
  assert (Ev : N.even m = true) by (destruct (T E); [lra|assumption]).
  assert (Ev' : N.even m' = true) by (destruct T'; [symmetry; exact E|lra|assumption]).
  apply N.even_spec in Ev as (h & Eh). apply N.even_spec in Ev' as (h' & Eh').
  assert (Vn : valid_single (m + 1) e) by (unfold valid_single in *; lia).
  assert (Nx := single_next _ _ _ _ V V' L).
  assert (Lt : (mag m e < mag (m + 1) e)%Q).
  { unfold mag. assert (P : (0 < 2 ^ e)%Q) by apply pow2_pos. replace (Z.of_N (m + 1)) with (Z.of_N m + 1) by lia. rewrite inject_Z_plus.
    change (inject_Z 1) with 1%Q. set (x := (2 ^ e)%Q) in *. set (y := inject_Z (Z.of_N m)). nra. }
  destruct (Qlt_le_dec (mag (m + 1) e) (mag m' e')) as [S|S].
  - destruct (C _ _ Vn) as (B & _). revert B E. apply Qabs_case; intros ? ; apply Qabs_case; intros ?; [|apply Qabs_case; intros ?..|apply Qabs_case; intros ?]; try lra.
    apply Qabs_case; intros; lra.
  - destruct (single_same (m + 1) e m' e' Vn V') as (X & _); [lra|]. lia.
Qed.
Lemma nearest_single_unique : forall q s m e m' e', valid_single m e -> valid_single m' e' ->
  nearest single_of q s m e -> nearest single_of q s m' e' -> m = m' /\ e = e'.
Proof.
  intros q s m e m' e' V V' C C'. apply single_same; try assumption.
  assert (A := nearest_single_order _ _ _ _ _ _ V V' C C'). assert (B := nearest_single_order _ _ _ _ _ _ V' V C' C). apply Qnot_lt_le in A, B. lra.
Qed.

(** ** Patterns *)

Lemma ieee_inj : forall eb mb b b', 1 <= eb -> 0 <= mb -> 0 <= b < 2 ^ (1 + eb + mb) -> 0 <= b' < 2 ^ (1 + eb + mb) ->
  ieee_of eb mb b = ieee_of eb mb b' -> ieee_of eb mb b <> INaN -> b = b'.
Proof.
  intros eb mb b b' He Hm Hb Hb' E NN.
  assert (Pm : 0 < 2 ^ mb) by (apply Z.pow_pos_nonneg; lia). assert (Pe : 0 < 2 ^ eb) by (apply Z.pow_pos_nonneg; lia).
  assert (Q : 2 ^ (mb + eb) = 2 ^ mb * 2 ^ eb) by (apply Z.pow_add_r; lia).
  assert (Q2 : 2 ^ (1 + eb + mb) = 2 * (2 ^ mb * 2 ^ eb)) by (rewrite !Z.pow_add_r by lia; lia).
  unfold ieee_of in *. cbv zeta in *. rewrite Q in *. rewrite Q2 in *. clear Q Q2.
  set (M := 2 ^ mb) in *. set (X := 2 ^ eb) in *. set (bias := 2 ^ (eb - 1) - 1) in *. clearbody M X bias.
  assert (D : forall b, 0 <= b < 2 * (M * X) -> exists g x f, b / M mod X = x /\ b mod M = f /\ (1 <=? b / (M * X)) = g
     /\ b = (if g : bool then M * X else 0) + x * M + f /\ 0 <= x < X /\ 0 <= f < M).
  { clear - Pm Pe. intros b Hb. exists (1 <=? b / (M * X)), (b / M mod X), (b mod M). split; [reflexivity|]. split; [reflexivity|]. split; [reflexivity|].
    assert (A := Z.div_mod b M ltac:(lia)). assert (B := Z.div_mod (b / M) X ltac:(lia)). rewrite Z.div_div in B by lia.
    assert (F := Z.mod_pos_bound b M ltac:(lia)). assert (G := Z.mod_pos_bound (b / M) X ltac:(lia)).
    assert (K : 0 <= b / (M * X) < 2) by (split; [apply Z.div_pos; nia|apply Z.div_lt_upper_bound; nia]).
    split; [|auto]. destruct (Z.leb_spec 1 (b / (M * X))) as [Y|Y].
    - assert (Z1 : b / (M * X) = 1) by lia. rewrite Z1 in B. rewrite A at 1. rewrite B at 1. ring.
    - assert (Z1 : b / (M * X) = 0) by lia. rewrite Z1 in B. rewrite A at 1. rewrite B at 1. ring. }
  destruct (D b Hb) as (g & x & f & E1 & E2 & E3 & E4 & R1 & R2). destruct (D b' Hb') as (g' & x' & f' & E1' & E2' & E3' & E4' & R1' & R2').
  rewrite E1, E2, E3, E1', E2', E3' in E. rewrite E1, E2, E3 in NN. clear E1 E2 E3 E1' E2' E3' D.
  assert (g = g' /\ x = x' /\ f = f') as (-> & -> & ->); [|congruence].
  destruct (Z.eqb_spec x (X - 1)) as [C|C].
  - destruct (Z.eqb_spec f 0) as [F|F]; [|congruence].
    destruct (Z.eqb_spec x' (X - 1)) as [C'|C']; [|destruct (x' =? 0); discriminate].
    destruct (Z.eqb_spec f' 0) as [F'|F']; [|discriminate]. injection E as ->. auto with zarith.
  - destruct (Z.eqb_spec x' (X - 1)) as [C'|C']; [destruct (f' =? 0), (x =? 0); discriminate|].
    destruct (Z.eqb_spec x 0) as [F|F], (Z.eqb_spec x' 0) as [F'|F']; injection E as -> E; try lia.
Qed.

(** ** Bytes *)

Lemma le_number_range : forall l, Forall is_byte l -> 0 <= le_number l < 2 ^ (8 * Z.of_nat (length l)).
Proof.
  induction 1 as [|b l B _ IH]; [cbn; lia|]. cbn [le_number length]. unfold is_byte in B.
  replace (8 * Z.of_nat (S (length l))) with (8 + 8 * Z.of_nat (length l)) by lia. rewrite Z.pow_add_r by lia. change (2 ^ 8) with 256. lia.
Qed.
Lemma le_number_inj : forall l l', length l = length l' -> Forall is_byte l -> Forall is_byte l' -> le_number l = le_number l' -> l = l'.
Proof.
  induction l as [|b l IH]; intros [|b' l'] L F F' E; try discriminate L; [reflexivity|]. injection L as L.
  inversion F as [|? ? B G]; inversion F' as [|? ? B' G']; subst. unfold is_byte in *. cbn [le_number] in E.
  assert (b = b') by lia. subst b'. f_equal. apply IH; try assumption. lia.
Qed.
Lemma number_range : forall e l, Forall is_byte l -> 0 <= number_of e l < 2 ^ (8 * Z.of_nat (length l)).
Proof.
  intros [] l F; unfold number_of; [apply le_number_range, F|]. rewrite <- (rev_length l). apply le_number_range.
  apply Forall_rev, F.
Qed.
Lemma number_inj : forall e l l', length l = length l' -> Forall is_byte l -> Forall is_byte l' -> number_of e l = number_of e l' -> l = l'.
Proof.
  intros [] l l' L F F' E; unfold number_of in E; [apply le_number_inj; assumption|].
  rewrite <- (rev_involutive l), <- (rev_involutive l'). f_equal. apply le_number_inj; [rewrite !rev_length; exact L|apply Forall_rev; assumption..|exact E].
Qed.

Lemma byte_string_unique : forall s s' b, byte_string s b -> byte_string s' b -> s = s'.
Proof.
  intros s s' b (_ & H) (_ & H'). rewrite <- H' in H. clear H'. rewrite <- (string_of_list_ascii_of_string s), <- (string_of_list_ascii_of_string s'). f_equal.
  revert H. generalize (list_ascii_of_string s) as l, (list_ascii_of_string s') as l'. induction l as [|x l IH]; intros [|y l'] H; try discriminate; [reflexivity|].
  injection H as E H. apply N2Z.inj in E. rewrite <- (ascii_N_embedding x), <- (ascii_N_embedding y), E, (IH _ H). reflexivity.
Qed.

(** ** Values *)

Lemma real_value_unique : forall v d d', real_value v d -> real_value v d' -> d = d'.
Proof.
  intros v d d' H H'. destruct H as [f|v z s m e Hz A V N S]; inversion H' as [f'|v' z' s' m' e' Hz' A' V' N' S']; subst; try reflexivity; try discriminate.
  rewrite Hz in Hz'. injection Hz' as <-. apply nearest_closest in N, N'.
  assert (W : valid_fin m e) by exact V. assert (W' : valid_fin m' e') by exact V'.
  destruct (closest_unique _ _ _ _ _ W W' N N') as (-> & ->). reflexivity.
Qed.

Lemma int_image_unique : forall e s w z b b', int_image e s w z b -> int_image e s w z b' -> b = b'.
Proof.
  intros e s w z b b' (L & F & E) (L' & F' & E'). assert (Ln : length b = length b') by lia.
  apply (number_inj e); try assumption. assert (R := number_range e b F). assert (R' := number_range e b' F').
  replace (8 * Z.of_nat (length b)) with w in R by lia. replace (8 * Z.of_nat (length b')) with w in R' by lia.
  destruct s; [|congruence]. unfold two_complement in *. 
  destruct (Z.ltb_spec (number_of e b) (2 ^ (w - 1))), (Z.ltb_spec (number_of e b') (2 ^ (w - 1))); lia.
Qed.

Lemma single_image_unique : forall e d b b', single_image e d b -> single_image e d b' -> b = b'.
Proof.
  intros e d b b' (L & F & E) (L' & F' & E'). apply (number_inj e); try assumption; [congruence|].
  assert (R := number_range e b F). assert (R' := number_range e b' F'). rewrite L in R. rewrite L' in R'.
  apply (ieee_inj 8 23); try lia; try assumption; fold (single_of).
  - change (ieee_of 8 23) with single_of. destruct d as [s m x|s]; [|congruence]. destruct E as (m1 & x1 & E & N), E' as (m2 & x2 & E' & N'). rewrite E, E'.
    destruct (nearest_single_unique _ _ _ _ _ _ (single_valid _ _ _ _ E) (single_valid _ _ _ _ E') N N') as (-> & ->). reflexivity.
  - change (ieee_of 8 23) with single_of. destruct d as [s m x|s]; [destruct E as (m1 & x1 & E & N)|]; rewrite E; discriminate.
Qed.

Lemma double_image_unique : forall e d b b', double_image e d b -> double_image e d b' -> b = b'.
Proof.
  intros e d b b' (L & F & E) (L' & F' & E'). apply (number_inj e); try assumption; [congruence|].
  assert (R := number_range e b F). assert (R' := number_range e b' F'). rewrite L in R. rewrite L' in R'.
  apply (ieee_inj 11 52); try lia; try assumption; change (ieee_of 11 52) with double_of; [congruence|]. rewrite E. destruct d; discriminate.
Qed.

Lemma image_unique : forall e enc v b b', image e enc v b -> image e enc v b' -> b = b'.
Proof.
  intros e [s w| |] v b b'; cbn [image].
  - intros (z & V & _ & I) (z' & V' & _ & I'). rewrite V in V'. injection V' as <-. eapply int_image_unique; eassumption.
  - intros (d & V & _ & I) (d' & V' & _ & I'). rewrite (real_value_unique _ _ _ V V') in I. eapply single_image_unique; eassumption.
  - intros (d & V & I) (d' & V' & I'). rewrite (real_value_unique _ _ _ V V') in I. eapply double_image_unique; eassumption.
Qed.

(** ** Encodings *)

Lemma defined_once : forall ds d d', NoDup (map def_name ds) -> In d ds -> In d' ds -> def_name d = def_name d' -> d = d'.
Proof.
  induction ds as [|x ds IH]; intros d d' ND [] [] E; subst; try reflexivity; inversion ND as [|? ? N ND']; subst.
  - exfalso. apply N. rewrite E. apply in_map. assumption.
  - exfalso. apply N. rewrite <- E. apply in_map. assumption.
  - apply IH; assumption.
Qed.

Lemma leaf_size_unique : forall ds t w w', NoDup (map def_name ds) -> leaf_size ds t w -> leaf_size ds t w' -> w = w'.
Proof.
  intros ds t w w' ND H H'.
  destruct H as [t w N V|n c t w D V|n c l w D L|n w N V]; inversion H' as [t' u' N' V'|n' c' t' u' D' V'|n' c' l' u' D' L'|n' u' N' V']; subst.
  all: try (eapply value_size_unique; eassumption).
  all: try (exfalso; match goal with N : ~ is_type_name _ |- _ => apply N; eexists; reflexivity end).
  all: try (exfalso; match goal with N : ~ In ?n _, D : In ?d _ |- _ => apply N; change n with (def_name d); apply in_map; exact D end).
  - assert (E := defined_once _ _ _ ND D D' eq_refl). injection E as <- _. eapply value_size_unique; eassumption.
  - assert (E := defined_once _ _ _ ND D D' eq_refl). discriminate.
  - assert (E := defined_once _ _ _ ND D D' eq_refl). discriminate.
  - assert (E := defined_once _ _ _ ND D D' eq_refl). injection E as _ <-. eapply Enum_proofs.least_width_unique; eassumption.
Qed.

Lemma leaf_no_sequence : forall ds n c l w, NoDup (map def_name ds) -> In (DSequence n c l) ds -> leaf_size ds (TName n) w -> False.
Proof.
  intros ds n c l w ND D H. inversion H as [t' u' N' V'|n' c' t' u' D' V'|n' c' l' u' D' L'|n' u' N' V']; subst.
  - apply N'. eexists. reflexivity.
  - assert (E := defined_once _ _ _ ND D D' eq_refl). discriminate.
  - assert (E := defined_once _ _ _ ND D D' eq_refl). discriminate.
  - apply N'. change n with (def_name (DSequence n c l)). apply in_map. exact D.
Qed.

Lemma leaves_one : forall ds l ls ls', NoDup (map def_name ds) -> leaves ds l ls -> leaves ds l ls' -> ls = ls'.
Proof.
  intros ds l ls ls' ND H. revert ls'. induction H as [|m w r ls S _ IH|m n c l r ls1 ls2 T D _ IH1 _ IH2]; intros ls' H'.
  - inversion H'. reflexivity.
  - inversion H' as [|m' w' r' ls1' S' R'|m' n' c' l' r' ls1' ls2' T' D' R1 R2]; subst.
    + rewrite (leaf_size_unique _ _ _ _ ND S S'), (IH _ R'). reflexivity.
    + rewrite T' in S. destruct (leaf_no_sequence _ _ _ _ _ ND D' S).
  - inversion H' as [|m' w' r' ls1' S' R'|m' n' c' l' r' ls1' ls2' T' D' R1 R2]; subst.
    + rewrite T in S'. destruct (leaf_no_sequence _ _ _ _ _ ND D S').
    + rewrite T in T'. injection T' as <-. assert (E := defined_once _ _ _ ND D D' eq_refl). injection E as <- <-.
      rewrite (IH1 _ R1), (IH2 _ R2). reflexivity.
Qed.

Lemma bit_size_unique : forall ds t w w', NoDup (map def_name ds) -> bit_size ds t w -> bit_size ds t w' -> w = w'.
Proof.
  intros ds t w w' ND [H|(n & c & l & ls & -> & D & L & ->)] [H'|(n' & c' & l' & ls' & E' & D' & L' & ->)]; subst.
  - eapply leaf_size_unique; eassumption.
  - destruct (leaf_no_sequence _ _ _ _ _ ND D' H).
  - destruct (leaf_no_sequence _ _ _ _ _ ND D H').
  - injection E' as <-. assert (E := defined_once _ _ _ ND D D' eq_refl). injection E as <- <-. rewrite (leaves_one _ _ _ _ ND L L'). reflexivity.
Qed.

Lemma encoded_unique : forall ds t enc enc', NoDup (map def_name ds) -> encoded_as ds t enc -> encoded_as ds t enc' -> enc = enc'.
Proof.
  intros ds t enc enc' ND H H'.
  destruct H as [b e w B L I|b e w B S|b e A1 A2|b e A|t n s w E P S I|t E S|t E S];
  inversion H' as [b' e' w' B' L' I'|b' e' w' B' S'|b' e' A1' A2'|b' e' A'|t' n' s' w' E' P' S' I'|t' E' S'|t' E' S'];
    subst; try reflexivity; try lia; try discriminate; try tauto.
  - f_equal. eapply Enum_proofs.least_width_unique; eassumption.
  - f_equal. destruct S as (S1 & S2 & S3), S' as (S1' & S2' & S3'). apply Z.le_antisymm; auto.
  - rewrite E in E'. injection E' as <-. rewrite (bit_size_unique _ _ _ _ ND S S'). f_equal.
    unfold POSIX_INTEGERS in *. cbn [In] in P, P'. clear - P P'.
    repeat (destruct P as [P|P]; [injection P as <- <-; repeat (destruct P' as [P'|P']; [injection P'; congruence|]); destruct P'|]). destruct P.
  - rewrite E in E'. injection E' as ->. exfalso. clear - P. cbn [In POSIX_INTEGERS] in P. repeat (destruct P as [P|P]; [discriminate|]). exact P.
  - rewrite E in E'. injection E' as ->. exfalso. clear - P. cbn [In POSIX_INTEGERS] in P. repeat (destruct P as [P|P]; [discriminate|]). exact P.
  - rewrite E in E'. injection E' as <-. exfalso. clear - P'. cbn [In POSIX_INTEGERS] in P'. repeat (destruct P' as [P'|P']; [discriminate|]). exact P'.
  - congruence.
  - rewrite E in E'. injection E' as <-. exfalso. clear - P'. cbn [In POSIX_INTEGERS] in P'. repeat (destruct P' as [P'|P']; [discriminate|]). exact P'.
  - congruence.
Qed.

(** ** Clauses *)

Lemma clause_image_unique : forall ds mds e, NoDup (map def_name ds) -> NoDup (map def_name mds) ->
  forall w t b b', clause_image ds mds e t w b -> clause_image ds mds e t w b' -> b = b'.
Proof.
  intros ds mds e ND ND'. induction w as [c l IH] using clause_ind. intros t b b' H H'.
  inversion H as [? n c2 ms ? ? ? Et Hi II]; subst. inversion H' as [? n' c2' ms' ? ? ? Et' Hi' II']; subst. clear H H'.
  rewrite Et in Et'. injection Et' as <-. assert (E := defined_once _ _ _ ND' Hi Hi' eq_refl). injection E as <- <-. clear Hi Hi' Et.
  revert b b' II II'. induction l as [|i l IHl]; intros b b' II II'.
  - inversion II; inversion II'. congruence.
  - assert (IHr : forall b b', items_image ds mds e ms l b -> items_image ds mds e ms l b' -> b = b').
    { apply IHl. intros k w cm Hin. apply (IH k w cm). right. exact Hin. }
    inversion II as [|? k v cm r x enc b1 b2 LP NV EA IM IR|? k w cm r x b1 b2 LP CI IR]; subst;
    inversion II' as [|? k' v' cm' r' x' enc' b1' b2' LP' NV' EA' IM' IR'|? k' w' cm' r' x' b1' b2' LP' CI' IR']; subst.
    + rewrite (last_plain_unique _ _ _ _ LP LP') in EA. rewrite (encoded_unique _ _ _ _ ND EA EA') in IM.
      rewrite (image_unique _ _ _ _ _ IM IM'), (IHr _ _ IR IR'). reflexivity.
    + exfalso. eapply NV. reflexivity.
    + exfalso. eapply NV'. reflexivity.
    + rewrite (last_plain_unique _ _ _ _ LP LP') in CI. rewrite (IH k w cm (or_introl eq_refl) _ _ _ CI CI'), (IHr _ _ IR IR'). reflexivity.
Qed.

Lemma last_clause_unique : forall ms k w k' w', last_clause ms k w -> last_clause ms k' w' -> k = k' /\ w = w'.
Proof.
  intros ms k w k' w' (a & b & E & W & H) (a' & b' & E' & W' & H'). assert (k = k'); [|split; congruence]. subst ms.
  revert a' E'. induction a as [|z a IH]; intros a' E'; destruct a' as [|z' a']; cbn in E'; injection E' as -> E'.
  - reflexivity.
  - subst b. rewrite (H k') in W' by (apply in_or_app; right; left; reflexivity). discriminate.
  - subst b'. rewrite (H' k) in W by (apply in_or_app; right; left; reflexivity). discriminate.
  - eapply IH; eassumption.
Qed.

Lemma has_last_clause : forall ms k, In k ms -> m_with k <> None -> exists k' w, last_clause ms k' w.
Proof.
  induction ms as [|x ms IH]; intros k Hk W; [destruct Hk|].
  assert (D : (exists y, In y ms /\ m_with y <> None) \/ forall y, In y ms -> m_with y = None).
  { clear. induction ms as [|x ms [(y & Y & W)|N]]; [right; intros y []|left; exists y; split; [right|]; assumption|].
    destruct (m_with x) eqn:E; [left; exists x; split; [left; reflexivity|congruence]|right]. intros y [<-|Y]; auto. }
  destruct D as [(y & Y & W')|N].
  - destruct (IH _ Y W') as (k' & w & a & b & -> & H). exists k', w, (x :: a), b. split; [reflexivity|exact H].
  - destruct Hk as [<-|Hk]; [|rewrite (N _ Hk) in W; congruence]. destruct (m_with x) as [w|] eqn:E; [|congruence].
    exists x, w, [], ms. auto.
Qed.

(** ** The folder *)

Lemma local_names : forall input m, NoDup (map def_name (definitions input)) -> In m input -> NoDup (map def_name (mod_defs m)).
Proof.
  intros input m ND Hm. apply in_split in Hm as (a & b & ->). unfold definitions in ND. rewrite flat_map_app in ND. cbn [flat_map] in ND.
  rewrite !map_app in ND. apply NoDup_app_iff in ND as (_ & ND & _). apply NoDup_app_iff in ND as (ND & _). exact ND.
Qed.

Theorem images_exact : forall names fuel input fs fs' e m n c l k text,
  Forall (fun m => grammatical m = true) input -> run fuel (GenerateBinary names (Some e)) input fs = (fs', Ok tt) -> In m input ->
  In (DSequence n c l) (mod_defs m) -> In k l -> m_with k <> None ->
  (folder_get fs' (lowerize (c_name n) ++ ".bin") = Some text <-> is_image input m e n text).
Proof.
  intros names fuel input fs fs' e m n c l k text Hg HR Hm Hd Hk Hw.
  assert (ND : NoDup (map def_name (definitions input))) by (eapply (run_names names); [right; right; eexists; reflexivity|exact Hg|exact HR]).
  assert (ND' := local_names _ _ ND Hm).
  destruct (has_last_clause _ _ Hk Hw) as (k' & w & L).
  destruct (binary_written _ _ _ _ _ _ _ _ _ _ _ _ Hg HR Hm Hd L) as (s & b & F & B & C). rewrite F. split.
  - intros E. injection E as <-. exists c, l, k', w, b. auto.
  - intros (c2 & l2 & k2 & w2 & b2 & D2 & L2 & B2 & C2). assert (E := defined_once _ _ _ ND' Hd D2 eq_refl). injection E as <- <-.
    destruct (last_clause_unique _ _ _ _ _ L L2) as (<- & <-). rewrite (clause_image_unique _ _ _ ND ND' _ _ _ _ C C2) in B.
    f_equal. eapply byte_string_unique; eassumption.
Qed.

Lemma clauses_need_order : forall names fuel input fs fs' oe m n c l k,
  Forall (fun m => grammatical m = true) input -> run fuel (GenerateBinary names oe) input fs = (fs', Ok tt) -> In m input ->
  In (DSequence n c l) (mod_defs m) -> In k l -> m_with k <> None -> exists e, oe = Some e.
Proof.
  intros names fuel input fs fs' oe m n c l k Hg HR Hm Hd Hk Hw.
  assert (HC : config_command names (GenerateBinary names oe)) by (right; right; eexists; reflexivity).
  destruct (run_input_written names (GenerateBinary names oe) fuel input fs fs' m HC Hg HR Hm) as (b & bm & fl & C & Hbm & S1 & Hfl & R).
  assert (F := one_needs names input _ Hg HC b (proj2 C) bm m Hbm Hm S1 fuel fl Hfl). destruct F as (_ & F).
  destruct (m_with k) as [w|] eqn:E; [|congruence]. destruct (F n c l k w Hd Hk E) as (_ & e & _ & Q & _). exists e. exact Q.
Qed.

Lemma any_file_of_dec : forall names cmd input f, config_command names cmd ->
  (exists m, In m input /\ file_of cmd m f) \/ forall m, In m input -> ~ file_of cmd m f.
Proof.
  intros names cmd input f [->|[->|(oe & ->)]].
  - apply (file_of_dec names). auto.
  - apply (file_of_dec names). auto.
  - induction input as [|m l [(x & X & H)|H]]; [right; intros m []|left; exists x; split; [right|]; assumption|].
    assert (D : file_of (GenerateBinary names oe) m f \/ ~ file_of (GenerateBinary names oe) m f).
    { cbn [file_of]. destruct (string_dec f (c_name (mod_name m) ++ ".h")) as [E|E]; [tauto|].
      assert (D : (exists n c l k, In (DSequence n c l) (mod_defs m) /\ In k l /\ m_with k <> None /\ f = (lowerize (c_name n) ++ ".bin")%string)
        \/ ~ exists n c l k, In (DSequence n c l) (mod_defs m) /\ In k l /\ m_with k <> None /\ f = (lowerize (c_name n) ++ ".bin")%string); [|tauto].
      clear. induction (mod_defs m) as [|d ds [(n & c & l & k & D & R)|N]].
      - right. intros (n & c & l & k & [] & _).
      - left. exists n, c, l, k. split; [right; exact D|exact R].
      - assert (D : (exists n c l k, d = DSequence n c l /\ In k l /\ m_with k <> None /\ f = (lowerize (c_name n) ++ ".bin")%string)
          \/ ~ exists n c l k, d = DSequence n c l /\ In k l /\ m_with k <> None /\ f = (lowerize (c_name n) ++ ".bin")%string).
        { clear N. destruct d as [n c l| | |]; try (right; intros (? & ? & ? & ? & E & _); discriminate).
          destruct (string_dec f (lowerize (c_name n) ++ ".bin")) as [E|E]; [|right; intros (? & ? & ? & ? & Q & _ & _ & F); injection Q as <- <- <-; contradiction].
          destruct (existsb (fun k => match m_with k with Some _ => true | None => false end) l) eqn:X.
          - left. apply existsb_exists in X as (k & K & X). exists n, c, l, k. split; [reflexivity|]. split; [exact K|]. split; [|exact E]. intros Q. rewrite Q in X. discriminate.
          - right. intros (? & ? & ? & k & Q & K & W & _). injection Q as <- <- <-.
            assert (Y : existsb (fun k => match m_with k with Some _ => true | None => false end) l = true); [|congruence].
            apply existsb_exists. exists k. split; [exact K|]. destruct (m_with k); [reflexivity|congruence]. }
        destruct D as [(n & c & l & k & -> & R)|D]; [left; exists n, c, l, k; split; [left; reflexivity|exact R]|right].
        intros (n & c & l & k & [->|Q] & R); [apply D; exists n, c, l, k; split; [reflexivity|exact R]|apply N; exists n, c, l, k; split; assumption]. }
    destruct D as [D|D]; [left; exists m; split; [left; reflexivity|exact D]|right]. intros x [<-|X]; [exact D|exact (H x X)].
Qed.

Theorem whole_folder_exact : forall names cmd fuel input fs fs', config_command names cmd ->
  Forall (fun m => grammatical m = true) input -> run fuel cmd input fs = (fs', Ok tt) ->
  forall f text, folder_get fs' f = Some text <->
    (exists m, In m input /\ file_text cmd input m f text)
    \/ ((forall m, In m input -> ~ file_of cmd m f) /\ folder_get fs f = Some text).
Proof.
  intros names cmd fuel input fs fs' Hc Hg HR f text. assert (Hc' := Hc).
  destruct Hc as [->|[->|(oe & ->)]]; [eapply (folder_exact names); eauto|eapply (folder_exact names); eauto|].
  split.
  - intros E. destruct (any_file_of_dec names _ input f Hc') as [(m & Hm & F)|N].
    + left. exists m. split; [exact Hm|]. cbn [file_of file_text] in *. destruct F as [->|(n & c & l & k & Hd & Hk & Hw & ->)].
      * left. split; [reflexivity|]. eapply (headers_exact names (GenerateBinary names oe)); eassumption.
      * right. destruct (clauses_need_order _ _ _ _ _ _ _ _ _ _ _ Hg HR Hm Hd Hk Hw) as (e & ->). exists e, n. split; [reflexivity|]. split; [reflexivity|].
        eapply images_exact; eassumption.
    + right. split; [exact N|]. rewrite <- (other_file _ _ _ _ _ _ f Hc' Hg HR N). exact E.
  - intros [(m & Hm & T)|(N & E)]; [|rewrite (other_file _ _ _ _ _ _ f Hc' Hg HR N); exact E]. cbn [file_text] in T.
    destruct T as [(-> & T)|(e & n & -> & -> & T)].
    + eapply (headers_exact names (GenerateBinary names oe)); eassumption.
    + assert (T' := T). destruct T' as (c & l & k & w & b & Hd & (x & y & -> & Hw & _) & _).
      eapply (images_exact names fuel input fs fs' e m n c _ k); try eassumption; [apply in_or_app; right; left; reflexivity|congruence].
Qed.
