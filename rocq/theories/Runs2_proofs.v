(** * When the binary command succeeds *)
From Coq Require Import QArith Qabs Qpower Relations ZifyBool ZifyNat ZifyN Lia Lqa.
From Verif Require Import Base PyNum PyStr Ast Size Processor Bundle Sorter CCommon GenCfs GenC GenBinary Main
  Lib_proofs Spec_Enum Enum_proofs Spec_Num Num_proofs Spec_Check Check_proofs Spec_Grammar Spec_Bundle Bundle_proofs Reject_proofs Name_proofs Accept_proofs
  Spec_Size Size_proofs Spec_Gen Gen_proofs Field_proofs Spec_Order Order_proofs Cdata_proofs Run_proofs
  Spec_Ieee Ieee_proofs Spec_Layout Layout_proofs Spec_Binary Binary_proofs Cfs_proofs Spec_Runs Runs_proofs.
Open Scope Z_scope.

(** ** Too large or not: the same for all nearest doubles *)

Definition BIG : Q := inject_Z (2 ^ 128 - 2 ^ 103).
Definition BELOW : Q := inject_Z (2 ^ 128 - 2 ^ 103 - 2 ^ 75).

Lemma between : forall x q x' y : Q, (x < y)%Q -> (y < x')%Q -> (Qabs (x - q) == Qabs (x' - q))%Q ->
  (Qabs (y - q) < Qabs (x' - q))%Q.
Proof.
  intros x q x' y H1 H2. apply (Qabs_case (x - q)); intros A; apply (Qabs_case (x' - q)); intros B E; apply (Qabs_case (y - q)); intros C; lra.
Qed.

Lemma step_big : forall x q x' : Q, (x < BIG)%Q -> (BIG <= x')%Q -> (Qabs (x - q) == Qabs (x' - q))%Q ->
  (Qabs (x' - q) <= Qabs (BIG - q))%Q -> (Qabs (x - q) <= Qabs (BELOW - q))%Q -> (BELOW <= x)%Q.
Proof.
  intros x q x' H1 H2 E A B. apply Qnot_lt_le. intros L.
  assert (P : (BELOW < BIG)%Q) by reflexivity.
  assert (N := between x q x' BELOW L ltac:(lra) E). lra.
Qed.

Lemma multiple_even : forall m e, (m < 2 ^ 53)%N -> N.even m = true ->
  (BELOW <= inject_Z (Z.of_N m) * 2 ^ e)%Q -> (inject_Z (Z.of_N m) * 2 ^ e < BIG)%Q -> False.
Proof.
  intros m e M Ev L U.
  assert (E : 75 <= e).
  { destruct (Z.leb_spec 75 e) as [H|H]; [exact H|exfalso].
    assert (Q1 : (inject_Z (Z.of_N m) * 2 ^ e <= inject_Z (2 ^ 53 - 1) * 2 ^ 74)%Q).
    { apply Qmult_le_compat_nonneg.
      - split; [change 0%Q with (inject_Z 0); rewrite <- Zle_Qle; lia|rewrite <- Zle_Qle; lia].
      - split; [apply Qpower_pos; discriminate|]. apply Qpower_le_compat_l; [lia|discriminate]. }
    assert (Q2 : (inject_Z (2 ^ 53 - 1) * 2 ^ 74 < BELOW)%Q) by reflexivity. lra. }
  assert (P : (2 ^ e == inject_Z (2 ^ (e - 75)) * inject_Z (2 ^ 75))%Q).
  { replace e with ((e - 75) + 75) at 1 by lia. rewrite Qpower_plus by discriminate.
    assert (K : (2 ^ (e - 75) == inject_Z (2 ^ (e - 75)))%Q) by (change (2%Q) with (inject_Z 2); rewrite Zpower_Qpower by lia; reflexivity).
    rewrite K. reflexivity. }
  rewrite P in L, U. unfold BELOW, BIG in L, U. rewrite <- !inject_Z_mult in L, U. rewrite <- Zle_Qle in L. rewrite <- Zlt_Qlt in U.
  set (a := Z.of_N m * 2 ^ (e - 75)).
  assert (Ea : a = 2 ^ 53 - 2 ^ 28 - 1) by (unfold a; lia).
  assert (Em : exists h, Z.of_N m = 2 * h).
  { apply N.even_spec in Ev. destruct Ev as (h & ->). exists (Z.of_N h). lia. }
  destruct Em as (h & Eh). unfold a in Ea. rewrite Eh in Ea. assert (X : 2 * (h * 2 ^ (e - 75)) = 2 ^ 53 - 2 ^ 28 - 1) by lia. lia.
Qed.

Lemma double_pattern : forall s m e, valid_double (DFin s m e) = true -> exists b, double_of b = IFin s m e.
Proof. intros s m e V. destruct (bits64_exact _ V) as (_ & H). exists (bits64 (DFin s m e)). exact H. Qed.

Lemma nearest_overflow : forall q s m e s' m' e',
  valid_double (DFin s m e) = true -> valid_double (DFin s' m' e') = true ->
  nearest double_of q s m e -> nearest double_of q s' m' e' ->
  (single_overflow <= Qabs (qval s' m' e'))%Q -> (single_overflow <= Qabs (qval s m e))%Q.
Proof.
  intros q s m e s' m' e' V V' N N' T. apply Qnot_lt_le. intros L.
  destruct (double_pattern _ _ _ V) as (p & P). destruct (double_pattern _ _ _ V') as (p' & P').
  destruct (N _ _ _ _ P') as (A & Tie). destruct (N' _ _ _ _ P) as (B & _).
  assert (E : (Qabs (qval s m e - q) == Qabs (qval s' m' e' - q))%Q) by lra.
  assert (M : (m < 2 ^ 53)%N) by (cbn [valid_double] in V; destruct (N.ltb_spec m (2 ^ 52)); lia).
  destruct (Tie E) as [Eq|Ev].
  { rewrite Eq in L. lra. }
  change single_overflow with BIG in *.
  destruct (double_pattern false (2 ^ 53 - 2 ^ 28) 75 eq_refl) as (b1 & B1).
  destruct (double_pattern false (2 ^ 53 - 2 ^ 28 - 1) 75 eq_refl) as (b2 & B2).
  destruct (double_pattern true (2 ^ 53 - 2 ^ 28) 75 eq_refl) as (b3 & B3).
  destruct (double_pattern true (2 ^ 53 - 2 ^ 28 - 1) 75 eq_refl) as (b4 & B4).
  assert (Q1 : (qval false (2 ^ 53 - 2 ^ 28) 75 == BIG)%Q) by reflexivity.
  assert (Q2 : (qval false (2 ^ 53 - 2 ^ 28 - 1) 75 == BELOW)%Q) by reflexivity.
  assert (Q3 : (qval true (2 ^ 53 - 2 ^ 28) 75 == - BIG)%Q) by reflexivity.
  assert (Q4 : (qval true (2 ^ 53 - 2 ^ 28 - 1) 75 == - BELOW)%Q) by reflexivity.
  destruct (N' _ _ _ _ B1) as (X1 & _). destruct (N _ _ _ _ B2) as (X2 & _).
  destruct (N' _ _ _ _ B3) as (X3 & _). destruct (N _ _ _ _ B4) as (X4 & _).
  rewrite Q1 in X1. rewrite Q2 in X2. rewrite Q3 in X3. rewrite Q4 in X4.
  assert (L' : (- BIG < qval s m e)%Q /\ (qval s m e < BIG)%Q) by (split; revert L; apply Qabs_case; intros; lra).
  assert (W := abs_qval s m e).
  assert (K : (BELOW <= Qabs (qval s m e))%Q).
  { revert T. apply (Qabs_case (qval s' m' e')); intros Sg T.
    - assert (R := step_big _ _ _ (proj2 L') T E X1 X2). revert R. apply Qabs_case; intros; lra.
    - assert (F : forall a b : Q, (Qabs (- a - - b) == Qabs (a - b))%Q).
      { intros a b. rewrite <- (Qabs_opp (a - b)). apply Qabs_wd. ring. }
      assert (G : forall a b : Q, (Qabs (a - - b) == Qabs (- a - b))%Q).
      { intros a b. rewrite <- (Qabs_opp (a - - b)). apply Qabs_wd. ring. }
      assert (R : (BELOW <= - qval s m e)%Q).
      { apply (step_big _ (- q) (- qval s' m' e')); try lra.
        - rewrite !F. exact E.
        - rewrite (F (qval s' m' e')), (G BIG). exact X3.
        - rewrite (F (qval s m e)), (G BELOW). exact X4. }
      revert R. apply Qabs_case; intros; lra. }
  rewrite W in K, L. exact (multiple_even m e M Ev K L).
Qed.

Lemma real_value_overflow : forall v d d', real_value v d -> real_value v d' -> too_large d' -> too_large d.
Proof.
  intros v d d' H H' T. destruct H as [f|v z s m e Ev Z V N _].
  - inversion H' as [f'|v' z' s m e Ev' _ _ _ _]; subst; [exact T|discriminate].
  - inversion H' as [f'|v' z' s' m' e' Ev' _ V' N' _]; subst; [discriminate|]. assert (z' = z) by congruence. subst z'.
    cbn [too_large] in *. eapply nearest_overflow; eassumption.
Qed.

(** ** Without cycles between modules and types no sequence contains itself *)

Lemma home : forall input n m m', NoDup (map def_name (definitions input)) -> In m input -> In m' input ->
  In n (defined_names m) -> In n (defined_names m') -> m = m'.
Proof.
  intros input n m m' U Hm Hm' Hn Hn'. apply In_nth_error in Hm. destruct Hm as (i & Hi). apply In_nth_error in Hm'. destruct Hm' as (j & Hj).
  assert (E : i = j).
  { eapply (NoDup_flat_map_inj _ _ defined_names input); try eassumption. unfold definitions in U. clear - U.
    assert (E : map def_name (flat_map mod_defs input) = flat_map defined_names input).
    { induction input as [|x r IH]; [reflexivity|]. cbn [flat_map]. rewrite map_app. unfold defined_names at 1. f_equal. apply IH.
      cbn [flat_map] in U. rewrite map_app in U. apply NoDup_app_iff in U. tauto. }
    rewrite <- E. exact U. }
  subst j. congruence.
Qed.

Section Nonrecursive.
Variables (names : list string) (input : list module).
Hypothesis Hg : Forall (fun m => grammatical m = true) input.
Hypothesis V : bundle_valid names input.
Hypothesis PI : acyclic (imports_from input).
Hypothesis PT : forall m, In m input -> acyclic (uses_local m).

Let linked (a b : string) (ma mb : module) : Prop :=
  (ma = mb /\ clos_trans string (uses_local ma) a b)
  \/ clos_trans string (imports_from input) (mod_name ma) (mod_name mb).

Lemma nests_link : forall a b, nests (definitions input) a b ->
  exists ma mb, In ma input /\ In mb input /\ In a (defined_names ma) /\ In b (defined_names mb) /\ linked a b ma mb.
Proof.
  intros a b (c & l & m & c' & l' & Ha & Hm & Et & Hb).
  apply in_flat_map in Ha. destruct Ha as (ma & Hma & Ha).
  assert (Na : In a (defined_names ma)) by (apply (in_map def_name) in Ha; exact Ha).
  assert (VM := bv_modules _ _ V). rewrite Forall_forall in VM. destruct (VM ma Hma) as (_ & _ & TD).
  destruct (TD _ m b Ha Hm) as [Hi|Hl]; [rewrite Et; reflexivity| |].
  - unfold imported_names in Hi. apply in_concat in Hi. destruct Hi as (ns & Hns & Hi). apply in_map_iff in Hns. destruct Hns as (it & <- & Hit).
    destruct (proj2 (bundle_accepted_iff names input Hg) V) as (bun & Hbun).
    destruct (config_imports names input bun ma it Hg Hbun Hma Hit) as (im & Him & En & Inc).
    exists ma, im. repeat split; try assumption; [apply Inc; exact Hi|]. right. apply t_step. exists ma, it. rewrite En. auto.
  - exists ma, ma. repeat split; try assumption. left. split; [reflexivity|]. apply t_step. exists (DSequence a c l), m. repeat split; try assumption.
    rewrite Et. reflexivity.
Qed.

Lemma reaches_link : forall a b, reaches (definitions input) a b ->
  exists ma mb, In ma input /\ In mb input /\ In a (defined_names ma) /\ In b (defined_names mb) /\ linked a b ma mb.
Proof.
  intros a b H. induction H as [a b H|a b c H _ (mb' & mc & Hb' & Hc & Nb' & Nc & L2)]; [apply nests_link; exact H|].
  destruct (nests_link _ _ H) as (ma & mb & Ha & Hb & Na & Nb & L1).
  assert (mb = mb') by (eapply home; eauto using bv_names). subst mb'.
  exists ma, mc. repeat split; try assumption. destruct L1 as [(<- & L1)|L1], L2 as [(<- & L2)|L2].
  - left. split; [reflexivity|]. eapply t_trans; eassumption.
  - right. exact L2.
  - right. exact L1.
  - right. eapply t_trans; eassumption.
Qed.

Lemma processable_nonrecursive : nonrecursive (definitions input).
Proof.
  intros n H. destruct (reaches_link n n H) as (ma & mb & Ha & Hb & Na & Nb & L).
  assert (ma = mb) by (eapply home; eauto using bv_names). subst mb.
  destruct L as [(_ & L)|L].
  - apply (PT ma Ha). exists n. exact L.
  - apply PI. exists (mod_name ma). exact L.
Qed.
End Nonrecursive.

(** ** Sizes of members *)

Lemma member_specs_ok : forall fuel defs l,
  (exists s, member_specs fuel defs l = Ok s) <-> forall k, In k l -> m_with k = None -> exists w, member_size fuel defs (m_type k) = Ok w.
Proof.
  intros fuel defs. induction l as [|m r IH]; cbn [member_specs].
  - split; [intros _ k []|eexists; reflexivity].
  - destruct (m_with m) as [w|] eqn:W.
    + rewrite IH. split; intros H k; [|intros Hk; apply H; right; exact Hk]. intros [<-|Hk] N; [congruence|auto].
    + split.
      * intros (s & H). apply bind_ok in H. destruct H as (w & Hw & H). apply bind_ok in H. destruct H as (rest & Hr & _).
        intros k [<-|Hk] N; [eauto|]. apply (proj1 IH (ex_intro _ rest Hr) k Hk N).
      * intros H. destruct (H m (or_introl eq_refl) W) as (w & ->). cbn [bind].
        destruct (proj2 IH (fun k Hk => H k (or_intror Hk))) as (s & ->). eexists. reflexivity.
Qed.

Lemma sequence_specs_ok : forall fuel defs l,
  (exists s, sequence_specs fuel defs l = Ok s)
  <-> forall n c ms k, In (DSequence n c ms) l -> In k ms -> m_with k = None -> exists w, member_size fuel defs (m_type k) = Ok w.
Proof.
  intros fuel defs. induction l as [|d r IH]; cbn [sequence_specs].
  - split; [intros _ n c ms k []|eexists; reflexivity].
  - assert (X : is_sequence d = false ->
      ((exists s, sequence_specs fuel defs r = Ok s)
       <-> forall n c ms k, In (DSequence n c ms) (d :: r) -> In k ms -> m_with k = None -> exists w, member_size fuel defs (m_type k) = Ok w)).
    { intros N. rewrite IH. split; intros H n c ms k; [|intros Hd; apply (H n c ms k); right; exact Hd].
      intros [->|Hd]; [discriminate|apply (H n c ms k Hd)]. }
    destruct d as [n c ms|n c ms|n c ms|n t c]; try (apply X; reflexivity).
    split.
    + intros (s & H). apply bind_ok in H. destruct H as (s1 & H1 & H). apply bind_ok in H. destruct H as (s2 & H2 & _).
      intros n' c' ms' k [E|Hd].
      * injection E as <- <- <-. apply member_specs_ok. eauto.
      * apply (proj1 IH (ex_intro _ s2 H2) n' c' ms' k Hd).
    + intros H. destruct (proj2 (member_specs_ok fuel defs ms) (fun k => H n c ms k (or_introl eq_refl))) as (s1 & ->). cbn [bind].
      destruct (proj2 IH (fun n c ms k Hd => H n c ms k (or_intror Hd))) as (s2 & ->). eexists. reflexivity.
Qed.

Lemma sequence_specs_find : forall fuel defs l specs n c ms, sequence_specs fuel defs l = Ok specs -> In (DSequence n c ms) l ->
  exists d, dict_get n specs = Some d.
Proof.
  intros fuel defs. induction l as [|x l IH]; intros specs n c ms H Hd; cbn [sequence_specs] in H; [destruct Hd|].
  assert (X : is_sequence x = false -> sequence_specs fuel defs l = Ok specs -> exists d, dict_get n specs = Some d).
  { intros N Hs. destruct Hd as [->|Hd]; [discriminate|]. eapply IH; eassumption. }
  destruct x as [n' c' ms'|n' c' ms'|n' c' ms'|n' t' c']; try (apply X; [reflexivity|exact H]).
  apply bind_ok in H. destruct H as (s & Hs & H). apply bind_ok in H. destruct H as (rest & Hr & H). injection H as <-.
  cbn [dict_get]. destruct (dict_get n rest) as [d'|] eqn:E; [eauto|].
  destruct Hd as [Q|Hd].
  - injection Q as -> -> ->. rewrite String.eqb_refl. eauto.
  - destruct (IH rest n c ms Hr Hd) as (d & Ed). congruence.
Qed.

Lemma last_plain_unique : forall k ms x y, last_plain k ms x -> last_plain k ms y -> x = y.
Proof.
  intros k ms x y (a & b & E & Kx & Wx & Hb) (a' & b' & E' & Ky & Wy & Hb'). subst ms.
  revert a' E'. induction a as [|z a IH]; intros a' E'.
  - destruct a' as [|z' a']; cbn in E'; injection E' as -> E'; [reflexivity|]. subst b. exfalso. apply (Hb y); [apply in_or_app; right; left; reflexivity|exact Ky|exact Wy].
  - destruct a' as [|z' a']; cbn in E'; injection E' as -> E'; [|eapply IH; eassumption].
    exfalso. apply (Hb' x); [rewrite <- E'; apply in_or_app; right; left; reflexivity|exact Kx|exact Wx].
Qed.

Section Sizes.
Variables (names : list string) (input : list module) (bun : bundle).
Hypothesis Hg : Forall (fun m => grammatical m = true) input.
Hypothesis Hb : build_from_config names input = Ok bun.
Hypothesis V : bundle_valid names input.
Hypothesis PI : acyclic (imports_from input).
Hypothesis PT : forall m, In m input -> acyclic (uses_local m).
Let Ha : accepted input bun := or_introl (ex_intro _ names Hb).

Lemma size_found : forall n c l k w fuel, In (DSequence n c l) (definitions input) -> In k l ->
  bit_size (definitions input) (m_type k) w -> (S (length (definitions input)) <= fuel)%nat ->
  member_size fuel (all_defs bun) (m_type k) = Ok w.
Proof.
  intros n c l k w fuel Hd Hk S F. destruct fuel as [|fuel]; [lia|].
  assert (M : forall w', member_size (Datatypes.S fuel) (all_defs bun) (m_type k) = Ok w' -> w = w').
  { intros w' H. apply (member_bits input bun Hg Ha _ _ _ _ Hd Hk H). exact S. }
  destruct (member_size_step input bun Hg Ha _ k fuel Hd Hk) as [(n' & c' & l' & Et & Hl & E)|(NN & _ & E)].
  - destruct (sequence_size_decided input bun n' c' l' fuel Hg Ha (processable_nonrecursive names input Hg V PI PT) Hl ltac:(lia)) as [(ls & L & Q)|(_ & NL)].
    + rewrite E in *. rewrite Q in *. f_equal. symmetry. apply M. reflexivity.
    + exfalso. destruct S as [L|(n2 & c2 & l2 & ls & Et2 & Hl2 & L & ->)].
      * assert (U := bv_names _ _ V).
        assert (UU : forall x y, In x (definitions input) -> In y (definitions input) -> def_name x = def_name y -> x = y).
        { intros x y Hx Hy Q. exact (NoDup_map_inj _ _ def_name _ _ _ U Hx Hy Q). }
        rewrite Et in L. inversion L as [? ? NT|? ? ? ? Hi|? ? ? ? Hi|? ? Hi]; subst.
        -- apply NT. eexists; reflexivity.
        -- discriminate (UU _ _ Hi Hl eq_refl).
        -- discriminate (UU _ _ Hi Hl eq_refl).
        -- apply Hi. change n' with (def_name (DSequence n' c' l')). apply in_map. exact Hl.
      * rewrite Et in Et2. injection Et2 as <-.
        assert (Q := NoDup_map_inj _ _ def_name _ _ _ (bv_names _ _ V) Hl Hl2 eq_refl). injection Q as <- <-. exact (NL ls L).
  - apply E. destruct S as [L|(n2 & c2 & l2 & ls & Et2 & Hl2 & L & ->)]; [exact L|]. exfalso. apply NN. exists n2, c2, l2. auto.
Qed.
End Sizes.

(** ** Clauses *)

Section Clauses.
Variables (input : list module) (bun : bundle).
Hypothesis Hg : Forall (fun m => grammatical m = true) input.
Hypothesis Ha : accepted input bun.
Hypothesis U : NoDup (map def_name (definitions input)).
Let ds := definitions input.
Variables (mds mdi : list definition) (fuel : nat) (specs : list (string * list (string * spec))) (e : endianness).
Hypothesis Hm : forall n c ms, In (DSequence n c ms) mds <-> In (DSequence n c ms) mdi.
Hypothesis Hi : forall n c ms, In (DSequence n c ms) mdi -> In (DSequence n c ms) ds.
Hypothesis Hs : sequence_specs fuel (all_defs bun) mds = Ok specs.

Lemma leaf_complete : forall d x w v enc b, In d ds -> In x (members_of d) -> member_size fuel (all_defs bun) (m_type x) = Ok w ->
  wval_ok v = true -> encoded_as ds (m_type x) enc -> image e enc v b ->
  exists b', leaf_bytes (Some e) (member_spec (m_type x) w) v = Ok [b'].
Proof.
  intros d x w v enc b Hd Hx Hw Hv HE HI. unfold member_spec. destruct enc as [s w'| |]; cbn [image] in HI.
  - destruct HI as (z & Ez & F & _). assert (L := leaf_integer input bun d x fuel w s w' e v Hg Ha Hd Hx Hw HE). rewrite Ez in L.
    destruct (proj1 L F) as (b' & L' & _). eauto.
  - destruct HI as (y & R & T & _). destruct (leaf_single input bun d x fuel w e v Hg Ha Hd Hx Hw HE) as [(y' & R' & [(T' & _)|(_ & b' & L & _)])|(N & _)].
    + destruct T. eapply real_value_overflow; eassumption.
    + eauto.
    + destruct (N _ R).
  - destruct HI as (y & R & _). destruct (leaf_double input bun d x fuel w e v Hg Ha Hd Hx Hw HE Hv) as [(y' & b' & _ & L & _)|(N & _)].
    + eauto.
    + destruct (N _ R).
Qed.

Lemma clause_complete : forall w t b, wcomps_ok w = true -> clause_image ds mdi e t w b ->
  exists bs, clause_bytes (Some e) specs (type_name t) w = Ok bs.
Proof.
  induction w as [c l IH] using clause_ind. intros t b Hok H. rewrite clause_bytes_eq.
  assert (Hit := wcomps_ok_items _ Hok). cbn [wc_items] in Hit.
  inversion H as [? n c' ms ? ? ? Et Hd I]; subst. clear H. rewrite (element_name _ _ Et).
  destruct (sequence_specs_find _ _ _ _ n c' ms Hs ltac:(apply Hm; exact Hd)) as (d & Ed).
  destruct (sequence_specs_get _ _ _ _ _ _ Hs Ed) as (c2 & ms2 & Hd2 & Es).
  assert (E2 : DSequence n c2 ms2 = DSequence n c' ms).
  { apply (NoDup_map_inj _ _ def_name _ _ _ U); [apply Hi, Hm; exact Hd2|apply Hi; exact Hd|reflexivity]. }
  injection E2 as -> ->. clear Hok Hd2.
  assert (Hdd := Hi _ _ _ Hd). revert b I. induction l as [|[k v cm] l IHl]; intros b I.
  - eexists. reflexivity.
  - cbn [items_bytes item_bytes]. rewrite Ed. assert (G := member_specs_get _ _ _ _ k Es).
    assert (Hv : wval_ok v = true).
    { inversion Hit as [|? ? Q _]; subst. cbn in Q. apply andb_prop in Q. destruct Q as (Q & _). apply andb_prop in Q. apply Q. }
    assert (R : forall b', items_image ds mdi e ms l b' -> exists bs, items_bytes (Some e) specs n l = Ok bs).
    { apply IHl; [|inversion Hit; assumption]. intros k0 w0 cm0 Hin. apply (IH k0 w0 cm0). right. exact Hin. }
    inversion I as [|? ? ? ? ? x enc b1 b2 LP NV HE HI IR|? ? w' ? ? x b1 b2 LP CI IR]; subst.
    + destruct LP as (a & z & LE & LK & LW & LZ) eqn:LQ. destruct (dict_get k d) as [sp|].
      2:{ exfalso. apply (G x); [rewrite LE; apply in_or_app; right; left; reflexivity|exact LK|exact LW]. }
      destruct G as (x' & w & LP' & Hw & ->). assert (x' = x) by (eapply last_plain_unique; eassumption). subst x'.
      assert (Hx : In x ms) by (rewrite LE; apply in_or_app; right; left; reflexivity).
      destruct (leaf_complete _ x w v enc b1 Hdd Hx Hw Hv HE HI) as (b' & Hb').
      destruct (R b2 IR) as (bs & Hbs). rewrite Hbs.
      destruct v as [zz|f|bb|w']; [| | |destruct (NV w' eq_refl)]; rewrite Hb'; eexists; reflexivity.
    + destruct LP as (a & z & LE & LK & LW & LZ) eqn:LQ. destruct (dict_get k d) as [sp|].
      2:{ exfalso. apply (G x); [rewrite LE; apply in_or_app; right; left; reflexivity|exact LK|exact LW]. }
      destruct G as (x' & w & LP' & Hw & ->). assert (x' = x) by (eapply last_plain_unique; eassumption). subst x'.
      destruct (R b2 IR) as (bs & Hbs). rewrite Hbs.
      destruct (IH k w' cm (or_introl eq_refl) (m_type x) b1 Hv CI) as (bs' & Hbs'). cbn [member_spec sp_type]. rewrite Hbs'. eexists. reflexivity.
Qed.
End Clauses.

Lemma no_endianness : forall specs w n bs, wcomps_ok w = true -> clause_bytes None specs n w <> Ok bs.
Proof.
  intros specs. induction w as [c l IH] using clause_ind. intros n bs Hok H. rewrite clause_bytes_eq in H.
  assert (Hit := wcomps_ok_items _ Hok). cbn [wc_items] in Hit. destruct l as [|[k v cm] l].
  { cbn in Hok. rewrite andb_false_r in Hok. discriminate. }
  cbn [items_bytes item_bytes] in H. apply bind_ok in H. destruct H as (b1 & H & _).
  destruct (dict_get n specs) as [d|]; [|discriminate]. destruct (dict_get k d) as [sp|]; [|discriminate].
  assert (L : forall v, leaf_bytes None sp v <> Ok b1).
  { intros v' L. unfold leaf_bytes in L. destruct (sp_ctype sp); [|discriminate]. apply bind_ok in L. destruct L as (x & _ & L).
    apply bind_ok in L. destruct L as (u & _ & L). destruct (FORMAT _ _); discriminate. }
  destruct v as [z|f|bb|w']; try (apply (L _ H)).
  apply (IH k w' cm (or_introl eq_refl) (sp_type sp) b1); [|exact H].
  inversion Hit as [|? ? Q _]; subst. cbn in Q. apply andb_prop in Q. destruct Q as (Q & _). apply andb_prop in Q. apply Q.
Qed.

(** ** Runs of binary *)

Section Binary.
Variables (names : list string) (input : list module).
Hypothesis Hg : Forall (fun m => grammatical m = true) input.

Lemma same_bmodule : forall b bm, build_from_config names input = Ok b -> In bm (b_modules b) ->
  exists m, In m input /\ same_module m (bm_mod bm).
Proof.
  intros b bm Hb Hbm. destruct (bundle_same names input b Hb) as (S & _). apply (in_map bm_mod) in Hbm.
  destruct (Forall2_in_r _ _ _ _ _ _ S Hbm) as (m & Hm & Sm). eauto.
Qed.

Lemma bmodule_of : forall b m, build_from_config names input = Ok b -> In m input ->
  exists bm, In bm (b_modules b) /\ same_module m (bm_mod bm).
Proof.
  intros b m Hb Hm. destruct (bundle_same names input b Hb) as (S & _).
  destruct (Forall2_in_l _ _ _ _ _ _ S Hm) as (m' & Hm' & Sm). apply in_map_iff in Hm'. destruct Hm' as (bm & <- & Hbm). eauto.
Qed.

Lemma clause_ok : forall m n c l k w, In m input -> In (DSequence n c l) (mod_defs m) -> In k l -> m_with k = Some w -> wcomps_ok w = true.
Proof.
  intros m n c l k w Hm Hd Hk Hw. rewrite Forall_forall in Hg. assert (G := Check_proofs.grammatical_members _ _ _ (Hg _ Hm) Hd Hk).
  unfold member_ok in G. rewrite Hw in G. lia.
Qed.

Lemma in_definitions : forall m d, In m input -> In d (mod_defs m) -> In d (definitions input).
Proof. intros m d Hm Hd. apply in_flat_map. eauto. Qed.

Lemma binary_run_iff : forall e fs,
  (forall fuel, snd (run fuel (GenerateBinary names e) input fs) = Ok tt -> processable names input /\ binary_processable e input)
  /\ (processable names input -> binary_processable e input ->
      forall fuel, (S (length input + length (definitions input)) <= fuel)%nat ->
      snd (run fuel (GenerateBinary names e) input fs) = Ok tt).
Proof.
  intros e fs. split.
  - intros fuel H. apply (run_needs names input Hg) in H; [|right; right; eauto]. destruct H as (P & b & Hb & N & W). split; [exact P|].
    assert (Ha : accepted input b) by (left; eauto).
    assert (WW : forall m n c l k w, In m input -> In (DSequence n c l) (mod_defs m) -> In k l -> m_with k = Some w ->
      exists bm specs bs, same_module m (bm_mod bm) /\ sequence_specs fuel (all_defs b) (mod_defs (bm_mod bm)) = Ok specs
        /\ clause_bytes e specs (type_name (m_type k)) w = Ok bs).
    { intros m n c l k w Hm Hd Hk Hw. destruct (bmodule_of b m Hb Hm) as (bm & Hbm & S).
      assert (Hd' := proj1 (same_module_sequence _ _ S n c l) Hd).
      destruct (W bm n c l k Hbm Hd' Hk ltac:(congruence)) as (c' & Hc). cbn [cmd_wch] in Hc. unfold bin_with_components in Hc. rewrite Hw in Hc.
      apply bind_ok in Hc. destruct Hc as (specs & Hs & Hc). apply bind_ok in Hc. destruct Hc as (bs & Hbs & _).
      exists bm, specs, bs. auto. }
    constructor.
    + intros m n c l k n' c' l' k' Hm Hd Hk Hw Hd' Hk' Hw'. destruct (m_with k) as [w|] eqn:Ew; [|congruence].
      destruct (WW m n c l k w Hm Hd Hk Ew) as (bm & specs & bs & S & Hs & _).
      assert (Hd2 := proj1 (same_module_sequence _ _ S n' c' l') Hd').
      destruct (proj1 (sequence_specs_ok fuel (all_defs b) (mod_defs (bm_mod bm))) (ex_intro _ specs Hs) n' c' l' k' Hd2 Hk' Hw') as (x & Hx).
      exists x. apply (member_bits input b Hg Ha (DSequence n' c' l') k' fuel x); try assumption; [|reflexivity].
      apply (in_definitions m); assumption.
    + intros m n c l k w Hm Hd Hk Hw. destruct (WW m n c l k w Hm Hd Hk Hw) as (bm & specs & bs & S & Hs & Hc).
      assert (Hok := clause_ok m n c l k w Hm Hd Hk Hw).
      destruct e as [e'|]; [|exfalso; exact (no_endianness _ _ _ _ Hok Hc)].
      exists e', (concat bs). split; [reflexivity|].
      eapply (clause_sound input b Hg Ha (mod_defs (bm_mod bm)) (mod_defs m)); try eassumption.
      * intros n' c' ms Hx. apply (in_definitions m); [exact Hm|]. apply (same_module_sequence _ _ S). exact Hx.
      * intros n' c' ms Hx. apply (same_module_sequence _ _ S). exact Hx.
      * assert (Hvd := accepted_modules_valid _ _ Hg Ha).
        destruct (definitions_types input (DSequence n c l) k Hg Hvd) as (Q & _); [apply (in_definitions m); assumption|exact Hk|exact Q].
  - intros P [B1 B2] fuel F. destruct (run_bundle names input Hg P) as (b & Hb). eapply run_suffices; try eassumption; [right; right; eauto|].
    assert (Ha : accepted input b) by (left; eauto). split.
    + intros n t c Hd. cbn [cmd_note]. unfold bin_note. destruct (mem n _); eexists; reflexivity.
    + intros bm n c l k Hbm Hd Hk Wk. cbn [cmd_wch]. unfold bin_with_components. destruct (m_with k) as [w|] eqn:Ew; [|congruence].
      destruct (same_bmodule b bm Hb Hbm) as (m & Hm & S). assert (Hd' := proj2 (same_module_sequence _ _ S n c l) Hd).
      assert (Hs : exists specs, sequence_specs fuel (all_defs b) (mod_defs (bm_mod bm)) = Ok specs).
      { apply sequence_specs_ok. intros n' c' ms k' Hx Hk' Hw'. apply (same_module_sequence _ _ S) in Hx.
        destruct (B1 m n c l k n' c' ms k' Hm Hd' Hk ltac:(congruence) Hx Hk' Hw') as (x & X). exists x.
        apply (size_found names input b Hg Hb (pr_valid _ _ P) (pr_imports _ _ P) (pr_types _ _ P) n' c' ms k' x fuel); try assumption; [|lia]. apply (in_definitions m); assumption. }
      destruct Hs as (specs & Hs). rewrite Hs. cbn [bind].
      destruct (B2 m n c l k w Hm Hd' Hk Ew) as (e' & im & -> & CI).
      destruct (clause_complete input b Hg Ha (bv_names _ _ (pr_valid _ _ P)) (mod_defs (bm_mod bm)) (mod_defs m) fuel specs e') with (w := w) (t := m_type k) (b := im)
        as (bs & ->); try assumption.
      * intros n' c' ms. split; apply (same_module_sequence _ _ S).
      * intros n' c' ms. apply (in_definitions m); assumption.
      * eapply clause_ok; eassumption.
      * eexists. reflexivity.
Qed.
End Binary.
