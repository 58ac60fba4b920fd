(** * Proofs: the bytes of initialised C objects *)
From Coq Require Import QArith Qpower Qabs Lqa.
From Coq Require Import List String ZArith Lia Bool Ascii Permutation ZifyBool ZifyNat ZifyN.
Import ListNotations.
From Verif Require Import Base PyNum PyStr PyFloat Ast CCommon GenBinary Main.
From Verif Require Import Spec_Grammar Spec_Check Spec_Num Spec_Enum Spec_Size Spec_Layout Spec_Bundle Spec_Gen Spec_Text Spec_Syntax Spec_C Spec_Header Spec_Valid
  Spec_Ieee Spec_Floats Spec_Init Spec_Binary Spec_Object.
From Verif Require Import Str_proofs Text_proofs Lib_proofs Check_proofs Bundle_proofs Accept_proofs Field_proofs Name_proofs Token_proofs Cfs_proofs Float_proofs
  Fraction_proofs Floats_proofs C_proofs Header3_proofs Valid_proofs Ieee_proofs Binary_proofs Runs2_proofs Cosmos_proofs Init_proofs Run_proofs Disk_proofs.
Open Scope string_scope.
Open Scope list_scope.
Open Scope Z_scope.

(** ** Small integers are doubles *)
Lemma small_pattern : forall z, Z.abs z <= 2 ^ 53 -> exists b s m e, double_of b = IFin s m e /\ (qval s m e == inject_Z z)%Q.
Proof.
  intros z L. destruct (Z.eq_dec z 0) as [->|NZ].
  { destruct (double_pattern false 0 (-1074) eq_refl) as (b & B). exists b, false, 0%N, (-1074). split; [exact B|]. reflexivity. }
  assert (L0 := Z.log2_nonneg (Z.abs z)). set (k := Z.log2 (Z.abs z)) in *.
  assert (P : 2 ^ k <= Z.abs z < 2 ^ (k + 1)) by (apply Z.log2_spec; lia).
  assert (K : k <= 53) by (unfold k; apply Z.log2_le_mono in L; rewrite Z.log2_pow2 in L by lia; exact L).
  clearbody k.
  destruct (Z.eq_dec k 53) as [->|Nk].
  { assert (Z.abs z = 2 ^ 53) by lia.
    assert (V : valid_double (DFin (z <? 0) (2 ^ 52) 1) = true) by reflexivity.
    destruct (double_pattern _ _ _ V) as (b & B). exists b, (z <? 0), (2 ^ 52)%N, 1. split; [exact B|].
    destruct (Z.ltb_spec z 0); [assert (z = - 2 ^ 53) as -> by lia|assert (z = 2 ^ 53) as -> by lia]; reflexivity. }
  set (m := Z.abs z * 2 ^ (52 - k)).
  assert (M : 2 ^ 52 <= m < 2 ^ 53).
  { unfold m. split.
    - replace (2 ^ 52) with (2 ^ k * 2 ^ (52 - k)) by (rewrite <- Z.pow_add_r by lia; f_equal; lia). apply Z.mul_le_mono_nonneg_r; [apply Z.pow_nonneg; lia|lia].
    - replace (2 ^ 53) with (2 ^ (k + 1) * 2 ^ (52 - k)) by (rewrite <- Z.pow_add_r by lia; f_equal; lia).
      apply Z.mul_lt_mono_pos_r; [apply Z.pow_pos_nonneg; lia|lia]. }
  assert (V : valid_double (DFin (z <? 0) (Z.to_N m) (k - 52)) = true).
  { unfold valid_double. assert (2 ^ 52 <= Z.to_N m < 2 ^ 53)%N by lia.
    destruct (N.ltb_spec (Z.to_N m) (2 ^ 52)); [lia|]. destruct (N.ltb_spec (Z.to_N m) (2 ^ 53)); [|lia]. cbn [andb]. lia. }
  destruct (double_pattern _ _ _ V) as (b & B). exists b, (z <? 0), (Z.to_N m), (k - 52). split; [exact B|].
  unfold qval. rewrite Z2N.id by lia.
  assert (Q : (inject_Z m * 2 ^ (k - 52) == inject_Z (Z.abs z))%Q).
  { unfold m. rewrite inject_Z_mult. change 2%Q with (inject_Z 2). rewrite (Zpower_Qpower 2 (52 - k)) by lia. rewrite <- Qmult_assoc, <- Qpower_plus by discriminate.
    replace (52 - k + (k - 52)) with 0 by lia. simpl. ring. }
  destruct (Z.ltb_spec z 0).
  - assert (E : z = - Z.abs z) by lia. rewrite E. rewrite inject_Z_opp, <- Q. ring.
  - rewrite Q. replace (Z.abs z) with z by lia. reflexivity.
Qed.

Lemma nearest_exact : forall q s m e b s' m' e', nearest double_of q s m e -> double_of b = IFin s' m' e' -> (qval s' m' e' == q)%Q ->
  (qval s m e == q)%Q.
Proof.
  intros q s m e b s' m' e' N B E. destruct (N _ _ _ _ B) as (L & _). rewrite E in L.
  assert (X : (Qabs (q - q) == 0)%Q) by (assert (Y : (q - q == 0)%Q) by ring; rewrite Y; reflexivity). rewrite X in L.
  revert L. apply Qabs_case; intros; lra.
Qed.

Lemma nearest_wd_any : forall dec q q' s m e, (q == q')%Q -> nearest dec q s m e -> nearest dec q' s m e.
Proof.
  intros dec q q' s m e E N b s' m' e' D. destruct (N b s' m' e' D) as (A & B). rewrite E in A, B. auto.
Qed.

(** ** Widths *)
Lemma smallest_full_signed : forall k w, In k [8; 16; 32; 64] ->
  smallest [8; 16; 32; 64] (fun w => holds_signed w (- 2 ^ (k - 1)) (2 ^ (k - 1) - 1)) w -> w = k.
Proof.
  intros k w Hk (Hw & H & M). assert (w <= k).
  { apply M; [exact Hk|]. intros v Hv. lia. }
  assert (k <= w); [|lia].
  assert (P : 0 < 2 ^ (k - 1)) by (apply Z.pow_pos_nonneg; simpl in Hk; lia).
  specialize (H (- 2 ^ (k - 1)) ltac:(lia)).
  assert (2 ^ (k - 1) <= 2 ^ (w - 1)) by lia. apply Z.pow_le_mono_r_iff in H1; simpl in Hk, Hw; lia.
Qed.

Lemma unsigned_same : forall lo hi w n, 0 <= lo <= hi -> least_width w hi -> In w [8; 16; 32; 64] ->
  smallest [8; 16; 32; 64] (fun n => holds_unsigned n lo hi) n -> n = w.
Proof.
  intros lo hi w n L (W0 & W1 & W2) Hw (Hn & H & M). specialize (H hi ltac:(lia)).
  assert (w <= n) by (apply W2; [simpl in Hn; lia|lia]). assert (n <= w); [|lia]. apply M; [exact Hw|]. intros v Hv. lia.
Qed.

Lemma posix_width : forall n s w ct lo hi, In (n, s) POSIX_INTEGERS -> In (n, ct) POSIX_NAMES ->
  posix_ok n (TInteger (Some (lo, hi))) -> value_size (TInteger (Some (lo, hi))) w -> In ([ct], (s, w)) C_INTEGERS.
Proof.
  intros n s w ct lo hi I1 I2 P V.
  assert (B : exists k, In k [8; 16; 32; 64] /\ In ([ct], (s, k)) C_INTEGERS
     /\ (if s then lo = - 2 ^ (k - 1) /\ hi = 2 ^ (k - 1) - 1 else lo = 0 /\ hi = 2 ^ k - 1)).
  { simpl in I1. repeat (destruct I1 as [I1|I1]; [injection I1 as <- <-;
      simpl in I2; repeat (destruct I2 as [I2|I2]; [first [discriminate I2|injection I2 as <-]|]); try contradiction;
      unfold posix_ok in P; simpl in P; destruct P as [P1 P2]; unfold QArith_base.Qeq in P1, P2; simpl in P1, P2;
      rewrite !Z.mul_1_r in P1, P2; subst lo hi;
      first [exists 8; solve [repeat split; simpl; tauto]|exists 16; solve [repeat split; simpl; tauto]
            |exists 32; solve [repeat split; simpl; tauto]|exists 64; solve [repeat split; simpl; tauto]]|]). destruct I1. }
  destruct B as (k & Hk & C & B). assert (w = k); [|subst; exact C].
  destruct s; destruct B as [-> ->].
  - assert (0 < 2 ^ (k - 1)) by (apply Z.pow_pos_nonneg; simpl in Hk; lia).
    inversion V as [|? ? ? L W|? ? ? L W| | | | | |]; subst; [lia|]. apply smallest_full_signed; assumption.
  - inversion V as [|? ? ? L W|? ? ? L W| | | | | |]; subst; [|lia].
    assert (K := least_width_full k ltac:(simpl in Hk; lia)). eapply Enum_proofs.least_width_unique; eassumption.
Qed.

(** ** Leaves *)
Section leaves.
Variables (ds : list definition) (e : endianness).
Hypothesis ND : NoDup (map def_name ds).
Hypothesis PX : forall n t c, In (DSimple n t c) ds -> posix_ok n t.

Lemma one : forall d d', In d ds -> In d' ds -> def_name d = def_name d' -> d = d'.
Proof. intros d d' A B E. eapply NoDup_map_inj; eauto. Qed.

Lemma integer_image : forall ct s w v str b, In (ct, (s, w)) C_INTEGERS -> image e (EInt s w) v b -> c_value v str -> constant_value v ->
  scalar_image e ct str b.
Proof.
  intros ct s w v str b I (z & Hz & F & B) C K. apply int_of_int with s w z; try assumption.
  destruct v as [y|f|bb|x]; cbn [int_value] in Hz; try discriminate; injection Hz as <-; cbn [c_value constant_value] in *.
  - assert (O := decimal_not_octal _ _ C). destruct C. unfold integer_constant. auto.
  - subst str. unfold integer_constant. destruct bb; (split; [reflexivity|]); (split; [|reflexivity]).
    + intros sg r [-> | ->] E; discriminate.
    + intros sg r [-> | ->] E; [injection E as <-; reflexivity|discriminate].
Qed.

Lemma value_constant : forall v s z, c_value v s -> constant_value v -> int_value v = Some z -> integer_constant s z.
Proof.
  intros v s z C K Hz. destruct v as [y|f|bb|x]; cbn [int_value] in Hz; try discriminate; injection Hz as <-; cbn [c_value constant_value] in *.
  - assert (O := decimal_not_octal _ _ C). destruct C. unfold integer_constant. auto.
  - subst s. unfold integer_constant. destruct bb; (split; [reflexivity|]); (split; [|reflexivity]).
    + intros sg r [-> | ->] E; discriminate.
    + intros sg r [-> | ->] E; [injection E as <-; reflexivity|discriminate].
Qed.

Lemma float_constant : forall f, float_ok f = true -> finite (fval f) -> floating_constant (frepr f) (fval f).
Proof. intros f OK F. split; [exact F|]. exact (printed_rounded f OK F). Qed.

Lemma single_leaf : forall v s b, wval_ok v = true -> c_value v s -> constant_value v -> (forall z, v = VInt z -> Z.abs z <= 2 ^ 53) ->
  image e ESingle v b -> scalar_image e ["float"] s b.
Proof.
  intros v s b OK C K L (d & R & T & B). destruct R as [f|v z sg m x Hz A V N Sg].
  - cbn [c_value constant_value wval_ok] in *. subst s. eapply float_of_floating; [apply float_constant; assumption|exact T|exact B].
  - assert (IC := value_constant _ _ _ C K Hz).
    assert (L' : Z.abs z <= 2 ^ 53).
    { destruct v as [y|f|bb|w]; cbn [int_value] in Hz; try discriminate; injection Hz as <-; [apply L; reflexivity|destruct bb; discriminate]. }
    destruct (small_pattern z L') as (pb & ps & pm & pe & PB & PQ). assert (Q := nearest_exact _ _ _ _ _ _ _ _ N PB PQ).
    destruct B as (B1 & B2 & m' & x' & B3 & B4). subst sg. eapply float_of_int; try eassumption.
    eapply nearest_wd_any; [exact Q|exact B4].
Qed.

Lemma double_leaf : forall v s b, wval_ok v = true -> c_value v s -> constant_value v ->
  image e EDouble v b -> scalar_image e ["double"] s b.
Proof.
  intros v s b OK C K (d & R & B). destruct R as [f|v z sg m x Hz A V N Sg].
  - cbn [c_value constant_value wval_ok] in *. subst s. eapply double_of_floating; [apply float_constant; assumption|exact B].
  - assert (IC := value_constant _ _ _ C K Hz). destruct B as (B1 & B2 & B3). subst sg. cbn [ieee_double] in B3.
    eapply double_of_int; eassumption.
Qed.

Lemma simple_size_of : forall n t c w, In (DSimple n t c) ds -> bit_size ds (TName n) w -> value_size t w.
Proof.
  intros n t c w I [H|(n' & c' & l & ls & E & I' & _)].
  - inversion H as [? ? N _|? ? ? ? I' V|? ? ? ? I' _|? ? N _]; subst.
    + exfalso. apply N. exists n. reflexivity.
    + assert (Q := one _ _ I I' eq_refl). injection Q as <- _. exact V.
    + assert (Q := one _ _ I I' eq_refl). discriminate.
    + exfalso. apply N. apply (in_map def_name _ _ I).
  - injection E as <-. assert (Q := one _ _ I I' eq_refl). discriminate.
Qed.

Lemma posix_both : forall n, In n (map fst POSIX_INTEGERS) -> In n (map fst POSIX_NAMES).
Proof. intros n H. simpl in H |- *. tauto. Qed.

Lemma leaf_field : forall x f enc v s b, member_said ds x f -> ranges_ok (m_type x) -> encoded_as ds (m_type x) enc ->
  image e enc v b -> same_width ds (m_type x) -> same_value ds (m_type x) v -> wval_ok v = true -> c_value v s ->
  x_array f = None /\ x_bits f = None /\ scalar_image e (x_type f) s b.
Proof.
  intros x f enc v s b (_ & XA & XT) R EN IM SW (SC & SI) OK C. rewrite XA. clear XA.
  revert XT. generalize (x_type f) as ct0, (x_bits f) as bits0. intros ct0 bits0 XT. destruct (m_type x) as [r|r| | | |n t|n]; try destruct SW; (split; [reflexivity|]).
  - (* REAL *)
    inversion XT as [X|? ? X|ct bits X NS| | | | | | | ]; subst; try discriminate; clear X.
    inversion EN as [| |b1 e1 A1 A2 EQ|b1 e1 A1 EQ|? n0 s0 w0 X|? X|? X]; subst; try discriminate;
      inversion NS as [| | |? ? B1 B2|? ? B1|? X|? ? X|? X|? X]; subst; try discriminate; try tauto; (split; [reflexivity|]).
    + eapply single_leaf; eauto.
    + eapply double_leaf; eauto.
  - (* INTEGER *)
    inversion XT as [X|? ? X|ct bits X NS| | | | | | | ]; subst; try discriminate; clear X.
    inversion EN as [lo hi w L W Hw EQ|lo hi w L W EQ| | |? n0 s0 w0 X|? X|? X]; subst; try discriminate.
    + inversion NS as [lo' hi' w' n ct' bits' L' W' _ SM UT BT|? ? w' L' W' G|? ? L'|? ? B1 B2|? ? B1|? X|? ? X|? X|? X]; subst; try discriminate; try lia.
      * assert (w' = w) by (eapply Enum_proofs.least_width_unique; eassumption). subst w'.
        assert (n = w). { eapply unsigned_same; try eassumption. split; [exact L|]. exact (Forall_inv R). } subst n.
        destruct (in_dec Z.eq_dec w [8; 16; 32; 64]) as [_|N]; [|contradiction]. split; [reflexivity|].
        eapply integer_image; [|exact IM|exact C|exact SC]. clear - UT. simpl in UT.
        destruct UT as [UT|[UT|[UT|[UT|[]]]]]; injection UT as <- <-; simpl; tauto.
      * exfalso. assert (w' = w) by (eapply Enum_proofs.least_width_unique; eassumption). simpl in Hw. lia.
    + inversion NS as [lo' hi' w' n ct' bits' L' W' _ SM UT BT|? ? w' L' W' G|? ? L'|? ? B1 B2|? ? B1|? X|? ? X|? X|? X]; subst; try discriminate; try lia.
      split; [reflexivity|]. cbn [same_width] in SW. specialize (SW L).
      assert (w = 32) by (destruct W as (P1 & P2 & P3), SW as (Q1 & Q2 & Q3); specialize (P3 _ Q1 Q2); specialize (Q3 _ P1 P2); lia). subst w.
      eapply integer_image; [|exact IM|exact C|exact SC]. simpl. tauto.
  - (* POSIX integer *)
    destruct H as (NP & r & c & I). apply posix_both in NP.
    inversion XT as [X|? ? X|? ? [[? X]|[? X]] Y|n' t' c' ct bits X I' NP' Y|n' t' c' ct X I' P|n' c' l X I' NP'|n' c' l X I' NP'|n' c' l w X I' NP' W|n' c' l m' e' X X2 I' NP'|n' d ct bits X I' DN SI' P];
      try discriminate; simpl in X; try (injection X as <-); try contradiction.
    + split; [reflexivity|]. assert (Q := one _ _ I I' eq_refl). injection Q as <- _.
      assert (PXn := PX _ _ _ I).
      inversion EN as [| | | |? n0 s0 w0 X IP BS Iw|? X BS|? X BS]; subst.
      * simpl in X. injection X as <-. assert (VS := simple_size_of _ _ _ _ I BS).
        destruct r as [[lo hi]|]; [|inversion VS]. eapply integer_image; [|exact IM|exact C|exact SC].
        eapply posix_width; eassumption.
      * simpl in X. injection X as ->. exfalso. simpl in NP. intuition discriminate.
      * simpl in X. injection X as ->. exfalso. simpl in NP. intuition discriminate.
    + exfalso. assert (Q := one _ _ I I' (eq_sym DN)). subst d. discriminate.
  - (* Float, Double *)
    destruct H as (NF & r & c & I).
    assert (NP : ~ In n (map fst POSIX_NAMES)) by (destruct NF as [<-|[<-|[]]]; simpl; intuition discriminate).
    assert (NE : forall s0, ~ In (n, s0) POSIX_INTEGERS) by (destruct NF as [<-|[<-|[]]]; simpl; intuition discriminate).
    inversion XT as [X|? ? X|? ? [[? X]|[? X]] Y|n' t' c' ct bits X I' NP' Y|n' t' c' ct X I' P|n' c' l X I' NP'|n' c' l X I' NP'|n' c' l w X I' NP' W|n' c' l m' e' X X2 I' NP'|n' d ct bits X I' DN SI' P];
      try discriminate; simpl in X; try (injection X as <-).
    + assert (Q := one _ _ I I' eq_refl). injection Q as <- _.
      inversion EN as [| | | |? n0 s0 w0 X IP BS Iw|? X BS|? X BS]; subst.
      * simpl in X. injection X as <-. destruct (NE _ IP).
      * simpl in X. injection X as ->. assert (VS := simple_size_of _ _ _ _ I BS).
        inversion VS; subst. inversion Y as [| | |? ? B1 B2|? ? B1|? X|? ? X|? X|? X]; subst; try discriminate; [|tauto].
        split; [reflexivity|]. eapply single_leaf; eauto.
      * simpl in X. injection X as ->. assert (VS := simple_size_of _ _ _ _ I BS).
        inversion VS; subst. inversion Y as [| | |? ? B1 B2|? ? B1|? X|? ? X|? X|? X]; subst; try discriminate; [tauto|].
        split; [reflexivity|]. eapply double_leaf; eauto.
    + exfalso. apply NP. eapply posix_in. eassumption.
    + exfalso. assert (Q := one _ _ I I' eq_refl). discriminate.
    + exfalso. assert (Q := one _ _ I I' eq_refl). discriminate.
    + exfalso. assert (Q := one _ _ I I' eq_refl). discriminate.
    + exfalso. apply NP. eapply posix_in. eassumption.
Qed.
End leaves.

(** ** Structs *)
Section structs.
Variables (ds mds : list definition) (e : endianness) (structs : string -> list xfield -> Prop).
Hypothesis ND : NoDup (map def_name ds).
Hypothesis OKd : Forall (fun d => definition_ok d = true) ds.
Hypothesis PX : forall n t c, In (DSimple n t c) ds -> posix_ok n t.
Hypothesis RG : forall d x, In d ds -> In x (members_of d) -> ranges_ok (m_type x).
Hypothesis SUB : forall d, In d mds -> In d ds.
Hypothesis EX : forall n c ms, In (DSequence n c ms) ds -> exists fs, structs (c_name n) fs /\ Forall2 (member_said ds) ms fs.

Lemma mirrors_keys : forall l ts, mirrors l ts -> map tree_key ts = map (fun i => c_name (wi_key i)) l.
Proof. intros l ts M. induction M; simpl; congruence. Qed.

Lemma designate : forall pre k v cm l t ts, NoDup (map wi_key (WI k v cm :: l)) ->
  Forall (fun i => witem_ok i = true) (WI k v cm :: l) ->
  mirrors l ts -> tree_key t = c_name k -> designated (pre ++ t :: ts) t.
Proof.
  intros pre k v cm l t ts N W M E. exists pre, ts. split; [reflexivity|]. rewrite E, (mirrors_keys _ _ M). intros H.
  apply in_map_iff in H. destruct H as (i & Ei & Hi). simpl in N. inversion N as [|? ? N1 N2]; subst. apply N1.
  rewrite Forall_forall in W. assert (W1 := W _ (or_introl eq_refl)). assert (W2 := W _ (or_intror Hi)).
  assert (K : forall i, witem_ok i = true -> is_name (wi_key i) = true).
  { intros [k' v' c'] H. simpl in H. apply andb_prop in H. destruct H as [H _]. apply andb_prop in H. destruct H as [H _]. apply lower_name. exact H. }
  apply c_name_inj in Ei; [|apply K; exact W2|apply (K _ W1)]. simpl in Ei. rewrite <- Ei. apply in_map. exact Hi.
Qed.

Lemma struct_fields : forall w t b, wcomps_ok w = true -> complete_in_order mds t w -> struct_image ds mds e t w b -> same_clause ds t w ->
  forall sub, mirrors (wc_items w) sub ->
  exists n c ms fs, t = TName n /\ ~ In n (map fst POSIX_NAMES) /\ In (DSequence n c ms) ds /\ structs (c_name n) fs /\ fields_image structs e fs sub b.
Proof.
  induction w as [c0 l IH] using clause_ind. intros t b W CO SI SC sub M. cbn [wc_items] in M.
  inversion SC as [n c ms cm l' Hd NP HL]; subst. inversion CO as [? n1 c1 ms1 ? ? Et1 Hd1 Ek Nk Hn]; subst.
  inversion SI as [? n2 c2 ms2 ? ? ? Et2 Hd2 MI]; subst. simpl in Et1, Et2. injection Et1 as <-. injection Et2 as <-.
  assert (Q := one ds ND _ _ Hd (SUB _ Hd1) eq_refl). injection Q as <- <-.
  assert (Q := one ds ND _ _ Hd (SUB _ Hd2) eq_refl). injection Q as <- <-.
  destruct (EX n c ms Hd) as (fs & St & F). exists n, c, ms, fs. split; [reflexivity|]. split; [exact NP|]. split; [exact Hd|]. split; [exact St|].
  apply wcomps_ok_items in W. cbn [wc_items] in W. rewrite <- Ek in Nk. clear SC CO SI Hd1 Hd2 Ek St.
  assert (G : forall l2 ts2, mirrors l2 ts2 -> forall pre ms2 fs2 b2,
    (forall x, In x ms2 -> In x ms) -> (forall i, In i l2 -> In i l) -> NoDup (map wi_key l2) -> Forall (fun i => witem_ok i = true) l2 ->
    members_image ds mds e ms2 l2 b2 -> Forall2 (member_said ds) ms2 fs2 -> fields_image structs e fs2 (pre ++ ts2) b2).
  { clear fs F W M Nk MI b sub. intros l2 ts2 M.
    induction M as [|k v kc r s ts V M IHM|k w kc r sub ts M1 _ M2 IHM]; intros pre ms2 fs2 b2 S1 S2 N2 W MI F.
    - inversion MI; subst. inversion F; subst. constructor.
    - inversion MI as [|x ms3 v' c' r' enc b1 b3 NV EA IM MR|x ms3 w c' r' b1 b3 SI MR]; subst; [|destruct V].
      inversion F as [|? f ? fs3 F1 F2]; subst.
      assert (Hx : In x ms) by (apply S1; left; reflexivity).
      destruct (HL _ _ _ x (S2 _ (or_introl eq_refl)) Hx eq_refl) as [(w & -> & _)|(SW & SV)]; [destruct V|].
      assert (Wv : wval_ok v = true).
      { apply Forall_inv in W. simpl in W. apply andb_prop in W. destruct W as [W _]. apply andb_prop in W. apply W. }
      destruct (leaf_field ds e ND PX x f enc v s b1 F1 (RG _ _ Hd Hx) EA IM SW SV Wv V) as (A & B & SI).
      eapply scalar_field; [exact A|exact B| |exact SI|].
      + rewrite (proj1 F1). eapply designate; [exact N2|exact W|exact M|reflexivity].
      + replace (pre ++ Leaf (c_name (m_key x)) s :: ts) with ((pre ++ [Leaf (c_name (m_key x)) s]) ++ ts) by (rewrite <- app_assoc; reflexivity).
        apply (IHM _ ms3); try assumption.
        * intros y Hy. apply S1. right. exact Hy.
        * intros y Hy. apply S2. right. exact Hy.
        * inversion N2; assumption.
        * inversion W; assumption.
    - inversion MI as [|x ms3 v' c' r' enc b1 b3 NV EA IM MR|x ms3 w' c' r' b1 b3 SI MR]; subst; [exfalso; exact (NV w eq_refl)|].
      inversion F as [|? f ? fs3 F1 F2]; subst.
      assert (Hx : In x ms) by (apply S1; left; reflexivity). assert (Hi := S2 _ (or_introl eq_refl)).
      destruct (HL _ _ _ x Hi Hx eq_refl) as [(w' & E & SC)|(_ & [] & _)]. injection E as <-.
      assert (Ww : wcomps_ok w = true).
      { apply Forall_inv in W. simpl in W. apply andb_prop in W. destruct W as [W _]. apply andb_prop in W. apply W. }
      destruct (IH _ _ _ Hi (m_type x) b1 Ww (Hn _ _ _ x Hi Hx eq_refl) SI SC sub M1) as (n' & c2 & ms' & fs' & Et & NP' & I' & St & FI).
      destruct (proj2 (struct_member ds ND OKd x f F1 n' c2 ms' I') (conj Et NP')) as (A & B & C).
      eapply Spec_Object.struct_field; [exact A|exact B|exact C|exact St| |exact FI|].
      + rewrite (proj1 F1). eapply designate; [exact N2|exact W|exact M2|reflexivity].
      + replace (pre ++ Node (c_name (m_key x)) sub :: ts) with ((pre ++ [Node (c_name (m_key x)) sub]) ++ ts) by (rewrite <- app_assoc; reflexivity).
        apply (IHM _ ms3); try assumption.
        * intros y Hy. apply S1. right. exact Hy.
        * intros y Hy. apply S2. right. exact Hy.
        * inversion N2; assumption.
        * inversion W; assumption. }
  apply (G l sub M [] ms fs b); auto.
Qed.
End structs.

Lemma concat_in : forall (x : string) l, In x l -> exists a b, String.concat "" l = (a ++ x ++ b)%string.
Proof.
  induction l as [|y l IH]; intros H; [destruct H|].
  assert (E : String.concat "" (y :: l) = (y ++ String.concat "" l)%string).
  { destruct l; simpl; [rewrite string_app_nil; reflexivity|reflexivity]. }
  rewrite E. destruct H as [->|H].
  - exists "", (String.concat "" l). reflexivity.
  - destruct (IH H) as (a & b & ->). exists (y ++ a)%string, b. rewrite string_app_assoc. reflexivity.
Qed.

(** ** Runs *)
Lemma same_bytes : forall names names' fuel fuel' input fs1 fs1' fs2 fs2' e m n c k w,
  Forall (fun m => grammatical m = true) input -> Forall quiet input ->
  run fuel (GenerateC names) input fs1 = (fs1', Ok tt) ->
  run fuel' (GenerateBinary names' (Some e)) input fs2 = (fs2', Ok tt) ->
  In m input -> In (DSequence n c [k]) (mod_defs m) -> m_with k = Some w ->
  complete_in_order (mod_defs m) (m_type k) w -> same_clause (definitions input) (m_type k) w ->
  exists pre text post bin b,
    folder_get fs1' (c_name (mod_name m) ++ ".c") = Some (pre ++ text ++ post)%string
    /\ variable_image (packed_struct (GenerateC names) fs1' input) e text b
    /\ folder_get fs2' (lowerize (c_name n) ++ ".bin") = Some bin /\ byte_string bin b.
Proof.
  intros names names' fuel fuel' input fs1 fs1' fs2 fs2' e m n c k w Hg HQ HR HB Hm Hd Hk HC SC.
  assert (CC : config_command names (GenerateC names)) by (right; left; reflexivity).
  assert (BV := run_valid names _ fuel input fs1 fs1' CC Hg HR). assert (ND := bv_names _ _ BV). assert (OKd := grammatical_definitions _ Hg).
  destruct (binary_written_struct names' fuel' input fs2 fs2' e m n c [k] k w Hg HB Hm Hd) as (bin & b & FB & BS & SI); [exists [], []; split; [reflexivity|]; split; [exact Hk|intros y []]|exact HC|].
  destruct (source_fits names fuel input fs1 fs1' Hg HR HQ m Hm) as (order & inc & texts & P & _ & E & F).
  assert (Hc : In (n, m_key k, w) (flat_map def_clauses order)).
  { apply in_flat_map. exists (DSequence n c [k]). split; [apply (Permutation_in _ (Permutation_sym P)); exact Hd|]. simpl. rewrite Hk. left. reflexivity. }
  destruct (Forall2_in_l _ _ _ _ _ _ F Hc) as (text & Ht & (INI & _)).
  destruct (concat_in _ _ Ht) as (a & z & Ec). rewrite Ec in E.
  exists (source_head m ++ inc ++ a)%string, text, z, bin, b. split; [rewrite E; f_equal; rewrite !string_app_assoc; reflexivity|].
  split; [|split; [exact FB|exact BS]].
  destruct INI as (body & sub & Etext & RI & MI & _).
  assert (EXS : forall n c ms, In (DSequence n c ms) (definitions input) ->
    exists fields, packed_struct (GenerateC names) fs1' input (c_name n) fields /\ Forall2 (member_said (definitions input)) ms fields).
  { clear - Hg HR HQ CC. intros n c ms Hd. rewrite Forall_forall in HQ. apply in_flat_map in Hd. destruct Hd as (m & Hm & Hd).
    destruct (header_declares names _ fuel input fs1 fs1' m CC Hg HR Hm (HQ m Hm)) as (text & h & order & dss & std & T & H & _ & _ & _ & E & P & _ & F).
    apply (Permutation_in _ (Permutation_sym P)) in Hd. destruct (Forall2_in_l _ _ _ _ _ _ F Hd) as (xs & Hxs & D).
    inversion D as [? ? ? fields FF| | |]; subst. exists fields. split; [|exact FF]. exists m, h. split; [exact Hm|]. split; [exists text; auto|].
    rewrite E. apply in_or_app. left. apply in_concat. eexists. split; [exact Hxs|]. left. reflexivity. }
  assert (Hds : In (DSequence n c [k]) (definitions input)) by (apply in_flat_map; exists m; auto).
  destruct (EXS n c [k] Hds) as (fields & PS & F2). inversion F2 as [|? f ? fs0 F3 F4]; subst. inversion F4; subst.
  exists (c_name n), [f], body, [Node (c_name (m_key k)) sub]. split; [exact PS|]. split; [reflexivity|]. split; [exact RI|].
  assert (KW : wcomps_ok w = true).
  { rewrite Forall_forall in OKd. specialize (OKd _ Hds). simpl in OKd. apply andb_prop in OKd. destruct OKd as [_ O].
    apply andb_prop in O. destruct O as [O _]. unfold member_ok in O. rewrite Hk in O. repeat (apply andb_prop in O; destruct O as [O ?]). assumption. }
  destruct (run_input_written names (GenerateC names) fuel input fs1 fs1' m CC Hg HR Hm) as (bun & _ & _ & CF & _).
  assert (AC := config_accepted _ _ _ CF). assert (VM := accepted_modules_valid _ _ Hg AC).
  destruct (struct_fields (definitions input) (mod_defs m) e (packed_struct (GenerateC names) fs1' input) ND OKd) with (w := w) (t := m_type k) (b := b) (sub := sub)
    as (n' & c' & ms' & fs' & Et & NP & I' & St & FI); try assumption.
  - intros n0 t0 c0 H0. apply in_flat_map in H0. destruct H0 as (m0 & Hm0 & H0). rewrite Forall_forall in VM.
    destruct (VM _ Hm0) as (_ & G & _). rewrite Forall_forall in G. apply (G _ H0).
  - intros d x H1 H2. apply (definitions_types input d x Hg VM H1 H2).
  - intros d H1. apply in_flat_map. exists m. auto.
  - destruct (proj2 (struct_member (definitions input) ND OKd k f F3 n' c' ms' I') (conj Et NP)) as (A & B & C).
    rewrite <- (app_nil_r b). eapply Spec_Object.struct_field; [exact A|exact B|exact C|exact St| |exact FI|constructor].
    rewrite (proj1 F3). exists [], []. split; [reflexivity|intros []].
Qed.
