(** * Proofs: sizes of messages *)
From Coq Require Import ZifyBool ZifyNat ZifyN Lia.
From Verif Require Import Base PyNum PyStr Ast Size Processor Bundle Lib_proofs Spec_Enum Enum_proofs
  Spec_Grammar Spec_Num Num_proofs Spec_Check Check_proofs Spec_Bundle Bundle_proofs Reject_proofs
  Spec_Size Accept_proofs Size_proofs Field_proofs Spec_Layout.
Open Scope Z_scope.

(** ** Types without definition *)

Lemma value_size_base : forall t w, type_ok t = true -> ranges_ok t -> element t <> TNull ->
  value_size t w <-> simple_size t = Ok w.
Proof.
  intros t w Hok Hr Hn. destruct t as [r|r| | |k n|n t|n]; cbn [simple_size].
  - destruct r as [[b e]|].
    + destruct (real_range_cases b e Hok) as [(H & _)|[(H & A & B & E)|[(H & F1 & F2 & N & E)|(H & N & E)]]].
      * exfalso. apply H. apply Forall_inv in Hr. apply Hr.
      * unfold base_size, get_c_type. rewrite E. simpl. split.
        -- intros V. inversion V; subst; [reflexivity|tauto].
        -- intros V. injection V as <-. constructor; assumption.
      * unfold base_size, get_c_type. rewrite E. simpl. split.
        -- intros V. inversion V; subst; [tauto|reflexivity].
        -- intros V. injection V as <-. constructor; assumption.
      * exfalso. apply N. apply Forall_inv in Hr. simpl in Hr. tauto.
    + split; intros V; [inversion V|discriminate].
  - destruct r as [[b e]|].
    + assert (L : b <= e) by exact (Forall_inv Hr). destruct (Z.leb_spec 0 b) as [P|P].
      * rewrite base_size_unsigned by assumption. assert (W := bit_length_least e ltac:(lia)). split.
        -- intros V. inversion V; subst; [|lia]. f_equal. destruct W as (W1 & W2 & W3). match goal with H : least_width w _ |- _ => destruct H as (V1 & V2 & V3) end.
           apply Z.le_antisymm; auto.
        -- intros V. injection V as <-. constructor; assumption.
      * rewrite base_size_signed by assumption. assert (W := signed_size_spec b e L). split.
        -- intros V. inversion V; subst; [lia|].
           match goal with H : smallest _ _ w |- _ => destruct H as (V1 & V2 & V3) end.
           destruct (get_bit_size _ _ _) as [w'|er|]; [| |destruct W].
           ++ f_equal. destruct W as (W1 & W2 & W3). apply Z.le_antisymm; auto.
           ++ exfalso. destruct er; try destruct W. exact (W _ V1 V2).
        -- intros V. rewrite V in W. constructor; assumption.
    + split; intros V; [inversion V|discriminate].
  - destruct (Hn eq_refl).
  - split; intros V; [inversion V; reflexivity|]. injection V as <-. constructor.
  - split; intros V; [inversion V; reflexivity|]. injection V as <-. constructor.
  - split; intros V; [inversion V; reflexivity|]. injection V as <-. constructor.
  - split.
    + intros V. inversion V; reflexivity.
    + intros V. unfold base_size, get_c_type, asn1_type in V. cbn [type_begin type_end type_name bind] in V.
      destruct (posix_range n) eqn:P.
      * destruct (startswith "Uint" n); [discriminate|]. destruct (startswith "Int" n); [discriminate|].
        destruct (String.eqb_spec n "Float") as [->|_]; [injection V as <-; constructor|].
        destruct (String.eqb_spec n "Double") as [->|_]; [injection V as <-; constructor|discriminate].
      * assert (K := capital_not_keyword n Hok).
        destruct (String.eqb_spec n "INTEGER") as [->|_]; [exfalso; apply K; simpl; tauto|].
        destruct (String.eqb_spec n "REAL") as [->|_]; [exfalso; apply K; simpl; tauto|].
        destruct (String.eqb_spec n "BOOLEAN") as [->|_]; [exfalso; apply K; simpl; tauto|]. discriminate.
Qed.

Lemma simple_size_fuel : forall t, simple_size t <> OutOfFuel.
Proof.
  assert (B : forall t, base_size t <> OutOfFuel).
  { intros t. unfold base_size. destruct (get_c_type t) as [c|]; [|discriminate]. unfold get_bit_size.
    destruct c; try discriminate.
    - destruct (type_end t) as [[]|]; discriminate.
    - destruct (type_begin t) as [[]|], (type_end t) as [[]|]; try discriminate.
      repeat (destruct (_ && _); [discriminate|]). discriminate.
    - destruct (type_end t) as [[]|]; discriminate. }
  intros t. destruct t; try apply B; discriminate.
Qed.

(** ** Leaves of accepted bundles *)

Section Bundle.
Variables (input : list module) (bun : bundle).
Hypothesis Hg : Forall (fun m => grammatical m = true) input.
Hypothesis Ha : accepted input bun.

Lemma accepted_enum : forall n c l, In (DEnumerated n c l) (definitions input) ->
  exists l', In (DEnumerated n c l') (all_defs bun)
    /\ exists w, enum_size l' = Ok w /\ least_width w (Z.of_nat (length l) - 1).
Proof.
  intros n c l H. destruct (accepted_same _ _ Ha) as (_ & Hs & _).
  destruct (Forall2_in_l _ _ _ _ _ _ Hs H) as (d' & Hd' & (l' & -> & (N & _))). exists l'. split; [exact Hd'|].
  assert (L : length l' = length l) by (rewrite <- (map_length number l'), N; unfold upto; rewrite map_length, seq_length; reflexivity).
  rewrite <- L. apply enum_size_width; [rewrite L, <- N; reflexivity|].
  intros ->. destruct l as [|x l]; [|discriminate].
  apply in_flat_map in H. destruct H as (m & Hm & H). rewrite Forall_forall in Hg.
  assert (G := grammatical_defs m _ (Hg m Hm) H). unfold definition_ok in G.
  repeat (apply andb_prop in G; destruct G as [G ?]). discriminate.
Qed.

(** A member's type, as seen by the size computation. *)
Lemma member_resolve : forall d k, In d (definitions input) -> In k (members_of d) ->
  match resolve (all_defs bun) (m_type k) with
  | RArray n t => m_type k = TArray n t
  | RString n => exists s, m_type k = TString s n
  | RDef x => m_type k = TName (def_name x) /\ In x (all_defs bun)
  | RNone => (~ is_type_name (m_type k) /\ (forall n t, m_type k <> TArray n t) /\ forall s n, m_type k <> TString s n)
             \/ (exists n, m_type k = TName n /\ ~ In n (map def_name (all_defs bun)))
  end.
Proof.
  intros d k Hd Hk. assert (Hv := accepted_modules_valid _ _ Hg Ha).
  destruct (definitions_types input d k Hg Hv Hd Hk) as (Hok & _ & Hn).
  assert (Hc : forall d, In d (all_defs bun) -> is_name_capital (def_name d) = true)
    by (intros x; apply (accepted_capital input); assumption).
  destruct (m_type k) as [r|r| | |s n|n t|n] eqn:E; cbn [resolve]; eauto;
    try (rewrite (lookup_keyword _ _ Hc); [left; split; [intros (x & X); discriminate|split; discriminate]|exact Hok|intros (x & X); discriminate|exact Hn]).
  change (type_name (TName n)) with n. destruct (lookup_def (all_defs bun) n) as [x|] eqn:L.
  - apply lookup_In in L. destruct L as (L & <-). auto.
  - right. apply lookup_none in L. eauto.
Qed.

Lemma same_names_defs : map def_name (all_defs bun) = map def_name (definitions input).
Proof. destruct (accepted_same _ _ Ha) as (_ & Hs & _). apply same_definitions_names. exact Hs. Qed.

Definition is_nested (t : asn_type) : Prop :=
  exists n c l, t = TName n /\ In (DSequence n c l) (definitions input).

(** One step of the size computation. *)
Lemma member_size_step : forall d k fuel, In d (definitions input) -> In k (members_of d) ->
  (exists n c l, m_type k = TName n /\ In (DSequence n c l) (definitions input)
     /\ member_size (S fuel) (all_defs bun) (m_type k) = sequence_size fuel (all_defs bun) l)
  \/ (~ is_nested (m_type k)
      /\ member_size (S fuel) (all_defs bun) (m_type k) <> OutOfFuel
      /\ forall w, member_size (S fuel) (all_defs bun) (m_type k) = Ok w <-> leaf_size (definitions input) (m_type k) w).
Proof.
  intros d k fuel Hd Hk. assert (R := member_resolve d k Hd Hk). assert (Hv := accepted_modules_valid _ _ Hg Ha).
  destruct (definitions_types input d k Hg Hv Hd Hk) as (Hok & Hr & Hn).
  destruct (accepted_same _ _ Ha) as (_ & Hs & Hu). assert (SN := same_names_defs).
  assert (U : forall x y, In x (definitions input) -> In y (definitions input) -> def_name x = def_name y -> x = y).
  { rewrite SN in Hu. intros x y Hx Hy E. exact (NoDup_map_inj _ _ def_name _ _ _ Hu Hx Hy E). }
  cbn [member_size]. destruct (resolve (all_defs bun) (m_type k)) as [n t|n|x|].
  - right. rewrite R. split; [intros (m & c & l & E & _); discriminate|]. split; [discriminate|]. intros w. split.
    + intros E. injection E as <-. apply leaf_value; [intros (m & E); discriminate|constructor].
    + intros L. inversion L; subst. inversion H0; subst. reflexivity.
  - right. destruct R as (s & R). rewrite R. split; [intros (m & c & l & E & _); discriminate|]. split; [discriminate|]. intros w. split.
    + intros E. injection E as <-. apply leaf_value; [intros (m & E); discriminate|constructor].
    + intros L. inversion L; subst. inversion H0; subst. reflexivity.
  - destruct R as (R & Hx). destruct (Forall2_in_r _ _ _ _ _ _ Hs Hx) as (x0 & Hx0 & Sx).
    assert (En := same_definition_name _ _ Sx). rewrite En in R.
    destruct x0 as [n c l|n c l|n c l|n t c]; simpl in Sx, R.
    + subst x. left. exists n, c, l. auto.
    + subst x. right. rewrite R. split; [intros (m & c' & l' & E & Hl); injection E as <-; discriminate (U _ _ Hl Hx0 eq_refl)|].
      split; [discriminate|]. intros w. split; [discriminate|]. intros L. exfalso. inversion L as [? ? NT|? ? ? ? Hi|? ? ? ? Hi|? ? Hi]; subst.
      * apply NT. eexists; reflexivity.
      * discriminate (U _ _ Hi Hx0 eq_refl).
      * discriminate (U _ _ Hi Hx0 eq_refl).
      * apply Hi. change n with (def_name (DChoice n c l)). apply in_map. exact Hx0.
    + destruct (accepted_enum _ _ _ Hx0) as (l' & Hl' & w0 & Ew & W).
      assert (x = DEnumerated n c l') as ->.
      { destruct Sx as (l2 & -> & _). exact (NoDup_map_inj _ _ def_name _ _ _ Hu Hx Hl' eq_refl). }
      right. rewrite R. split; [intros (m & c' & l2 & E & Hl); injection E as <-; discriminate (U _ _ Hl Hx0 eq_refl)|].
      rewrite Ew. split; [discriminate|]. intros w. split.
      * intros E. injection E as <-. eapply leaf_enum; eassumption.
      * intros L. inversion L as [? ? NT|? ? ? ? Hi|? ? ? ? Hi W'|? ? Hi]; subst.
        -- exfalso. apply NT. eexists; reflexivity.
        -- discriminate (U _ _ Hi Hx0 eq_refl).
        -- assert (E := U _ _ Hi Hx0 eq_refl). injection E as -> ->. f_equal. destruct W as (W1 & W2 & W3), W' as (V1 & V2 & V3).
           apply Z.le_antisymm; auto.
        -- exfalso. apply Hi. change n with (def_name (DEnumerated n c l)). apply in_map. exact Hx0.
    + subst x. right. rewrite R. destruct (accepted_simple _ _ _ _ _ Hg Ha Hx) as (Ok1 & Ok2 & Ok3 & _).
      assert (V := fun w => value_size_base t w Ok1 Ok2 Ok3).
      split; [intros (m & c' & l' & E & Hl); injection E as <-; discriminate (U _ _ Hl Hx0 eq_refl)|].
      split; [apply simple_size_fuel|]. intros w. rewrite <- V. split.
      * intros L. eapply leaf_simple; eassumption.
      * intros L. inversion L as [? ? NT|? ? ? ? Hi W|? ? ? ? Hi|? ? Hi]; subst.
        -- exfalso. apply NT. eexists; reflexivity.
        -- assert (E := U _ _ Hi Hx0 eq_refl). injection E as -> ->. exact W.
        -- discriminate (U _ _ Hi Hx0 eq_refl).
        -- exfalso. apply Hi. change n with (def_name (DSimple n t c)). apply in_map. exact Hx0.
  - right. assert (V := fun w => value_size_base (m_type k) w Hok Hr Hn).
    assert (Q : base_size (m_type k) = simple_size (m_type k)).
    { destruct R as [(_ & NA & NS)|(n & R & _)]; [|rewrite R; reflexivity].
      destruct (m_type k) as [?|?| | |s n|n t|?]; try reflexivity; [exfalso; exact (NS _ _ eq_refl)|exfalso; exact (NA _ _ eq_refl)]. }
    rewrite Q. split; [|split; [apply simple_size_fuel|]].
    + intros (n & c & l & E & Hl). destruct R as [(R & _)|(n' & R & N)]; [apply R; eexists; exact E|].
      rewrite E in R. injection R as <-. apply N. rewrite SN. change n with (def_name (DSequence n c l)). apply in_map. exact Hl.
    + intros w. rewrite <- V. destruct R as [(R & _)|(n & R & N)].
      * split; [apply leaf_value; exact R|]. intros L. inversion L as [? ? ? W|? ? ? ? ? ? E|? ? ? ? ? ? E|? ? ? W]; subst; try exact W;
          exfalso; apply R; eexists; symmetry; eassumption.
      * rewrite R. rewrite SN in N. split; [apply leaf_undefined; exact N|]. intros L.
        inversion L as [? ? NT|? ? ? ? Hi|? ? ? ? Hi|? ? ? W]; subst; [exfalso; apply NT; eexists; reflexivity| | |exact W]; exfalso; apply N;
          apply (in_map def_name) in Hi; exact Hi.
Qed.

(** ** Sums *)

Let step (fuel : nat) := fun acc m => let* s := acc in let* x := member_size fuel (all_defs bun) (m_type m) in Ok (s + x).

Lemma fold_bad : forall fuel l acc w, fold_left (step fuel) l acc = Ok w -> exists a, acc = Ok a.
Proof.
  intros fuel. induction l as [|m l IH]; intros acc w H; cbn [fold_left] in H; [eauto|].
  apply IH in H. destruct H as (a & H). unfold step in H. apply bind_ok in H. destruct H as (s & H & _). eauto.
Qed.

Lemma fold_sizes : forall fuel l a w, fold_left (step fuel) l (Ok a) = Ok w <->
  exists ws, Forall2 (fun m x => member_size fuel (all_defs bun) (m_type m) = Ok x) l ws /\ w = a + fold_right Z.add 0 ws.
Proof.
  intros fuel. induction l as [|m l IH]; intros a w; cbn [fold_left].
  - split.
    + intros H. injection H as <-. exists []. split; [constructor|simpl; lia].
    + intros (ws & F & ->). inversion F; subst. simpl. f_equal. lia.
  - split.
    + intros H. destruct (fold_bad _ _ _ _ H) as (a' & E). rewrite E in H. unfold step in E. cbn [bind] in E.
      apply bind_ok in E. destruct E as (x & Ex & E). injection E as <-. apply IH in H. destruct H as (ws & F & ->).
      exists (x :: ws). split; [constructor; assumption|simpl; lia].
    + intros (ws & F & ->). inversion F as [|? x ? ws' Hx F']; subst. unfold step at 2. cbn [bind]. rewrite Hx. cbn [bind].
      apply IH. exists ws'. split; [exact F'|simpl; lia].
Qed.

Lemma total_app : forall a b, total (a ++ b) = total a + total b.
Proof. intros a b. unfold total. rewrite map_app. induction (map snd a) as [|x l IH]; simpl; [reflexivity|lia]. Qed.

(** Members of a sequence of the input. *)
Definition known (l : list member) : Prop :=
  forall k, In k l -> exists d, In d (definitions input) /\ In k (members_of d).

Lemma known_sequence : forall n c l, In (DSequence n c l) (definitions input) -> known l.
Proof. intros n c l H k Hk. exists (DSequence n c l). auto. Qed.

Lemma sequence_size_sound : forall fuel l w, known l -> sequence_size fuel (all_defs bun) l = Ok w ->
  exists ls, leaves (definitions input) l ls /\ w = total ls.
Proof.
  induction fuel as [fuel IHf] using (well_founded_induction Wf_nat.lt_wf). intros l w K H.
  apply (proj1 (fold_sizes fuel l 0 w)) in H. destruct H as (ws & F & ->). cbn [Z.add].
  revert K. induction F as [|m x l ws Hx F IH]; intros K; [exists []; split; [constructor|reflexivity]|].
  destruct IH as (ls' & L' & E'); [intros k Hk; apply K; right; exact Hk|].
  destruct (K m (or_introl eq_refl)) as (d & Hd & Hm).
  destruct fuel as [|fuel]; [discriminate|].
  destruct (member_size_step d m fuel Hd Hm) as [(n & c & l0 & Et & Hl0 & E)|(_ & _ & E)].
  - rewrite E in Hx. destruct (IHf fuel ltac:(lia) l0 x (known_sequence _ _ _ Hl0) Hx) as (ls & L & ->).
    exists (ls ++ ls')%list. split; [eapply leaves_nested; eassumption|]. rewrite total_app. simpl. lia.
  - apply E in Hx. exists ((m, x) :: ls'). split; [constructor; assumption|]. unfold total in *. simpl. lia.
Qed.

Lemma sequence_size_cons : forall fuel m l x w, member_size fuel (all_defs bun) (m_type m) = Ok x ->
  sequence_size fuel (all_defs bun) l = Ok w -> sequence_size fuel (all_defs bun) (m :: l) = Ok (x + w).
Proof.
  intros fuel m l x w Hx Hw. apply (proj1 (fold_sizes fuel l 0 w)) in Hw. destruct Hw as (ws & F & ->).
  apply (fold_sizes fuel (m :: l) 0). exists (x :: ws). split; [constructor; assumption|simpl; lia].
Qed.

Lemma sequence_size_complete : forall l ls, leaves (definitions input) l ls -> known l ->
  exists F, forall fuel, (F <= fuel)%nat -> sequence_size fuel (all_defs bun) l = Ok (total ls).
Proof.
  intros l ls L. induction L as [|m w r ls Hw L IH|m n c l r ls ls' Et Hl L1 IH1 L2 IH2]; intros K.
  - exists O. intros fuel _. reflexivity.
  - destruct IH as (F & IH); [intros k Hk; apply K; right; exact Hk|]. destruct (K m (or_introl eq_refl)) as (d & Hd & Hm).
    exists (S F). intros fuel Hf. change (total ((m, w) :: ls)) with (w + total ls).
    apply sequence_size_cons; [|apply IH; lia]. destruct fuel as [|fuel]; [lia|].
    destruct (member_size_step d m fuel Hd Hm) as [(n & c & l0 & Et & Hl0 & E)|(_ & _ & E)]; [|apply E; exact Hw].
    exfalso. destruct (accepted_same _ _ Ha) as (_ & _ & Hu). rewrite same_names_defs in Hu.
    rewrite Et in Hw. inversion Hw as [? ? NT|? ? ? ? Hi|? ? ? ? Hi|? ? Hi]; subst.
    + apply NT. eexists; reflexivity.
    + discriminate (NoDup_map_inj _ _ def_name _ _ _ Hu Hi Hl0 eq_refl).
    + discriminate (NoDup_map_inj _ _ def_name _ _ _ Hu Hi Hl0 eq_refl).
    + apply Hi. apply (in_map def_name) in Hl0. exact Hl0.
  - destruct (IH1 (known_sequence _ _ _ Hl)) as (F1 & E1). destruct IH2 as (F2 & E2); [intros k Hk; apply K; right; exact Hk|].
    destruct (K m (or_introl eq_refl)) as (d & Hd & Hm). exists (S (Nat.max F1 F2)). intros fuel Hf. rewrite total_app.
    apply sequence_size_cons; [|apply E2; lia]. destruct fuel as [|fuel]; [lia|].
    destruct (accepted_same _ _ Ha) as (_ & _ & Hu). rewrite same_names_defs in Hu.
    destruct (member_size_step d m fuel Hd Hm) as [(n' & c' & l0 & Et' & Hl0 & E)|(N & _ & E)].
    + rewrite Et in Et'. injection Et' as <-. assert (X := NoDup_map_inj _ _ def_name _ _ _ Hu Hl0 Hl eq_refl).
      injection X as -> ->. rewrite E. apply E1. lia.
    + exfalso. apply N. exists n, c, l. auto.
Qed.

(** ** Recursive types *)

Lemma leaves_acc : forall l ls, leaves (definitions input) l ls ->
  forall m b c' l', In m l -> m_type m = TName b -> In (DSequence b c' l') (definitions input) ->
  Acc (fun y x => nests (definitions input) x y) b.
Proof.
  destruct (accepted_same _ _ Ha) as (_ & _ & Hu). rewrite same_names_defs in Hu.
  intros l ls L. induction L as [|m w r ls Hw L IH|m n c l r ls ls' Et Hl L1 IH1 L2 IH2]; intros m' b c' l' Hm Et' Hl'.
  - destruct Hm.
  - destruct Hm as [->|Hm]; [|eapply IH; eassumption]. exfalso. rewrite Et' in Hw.
    inversion Hw as [? ? NT|? ? ? ? Hi|? ? ? ? Hi|? ? Hi]; subst.
    + apply NT. eexists; reflexivity.
    + discriminate (NoDup_map_inj _ _ def_name _ _ _ Hu Hi Hl' eq_refl).
    + discriminate (NoDup_map_inj _ _ def_name _ _ _ Hu Hi Hl' eq_refl).
    + apply Hi. apply (in_map def_name) in Hl'. exact Hl'.
  - destruct Hm as [->|Hm]; [|eapply IH2; eassumption]. rewrite Et in Et'. injection Et' as <-.
    constructor. intros y (c2 & l2 & m2 & c3 & l3 & H2 & Hm2 & E2 & H3).
    assert (X := NoDup_map_inj _ _ def_name _ _ _ Hu H2 Hl eq_refl). injection X as -> ->. eapply IH1; eassumption.
Qed.

Lemma acc_not_reaches : forall n, Acc (fun y x => nests (definitions input) x y) n ->
  ~ recursive (definitions input) n.
Proof.
  intros n A. induction A as [n A IH]. intros [R|(k & R & RR)].
  - assert (exists y, nests (definitions input) n y /\ (y = n \/ reaches (definitions input) y n)) as (y & Hy & [->|R'])
      by (inversion R; subst; eauto 8).
    + apply (IH n Hy). left. exact R.
    + apply (IH y Hy). right. exists n. split; [exact R'|exact R].
  - destruct R as [a b Hb|a b c Hb R].
    + apply (IH b Hb). left. exact RR.
    + apply (IH b Hb). right. eauto.
Qed.

Lemma recursive_no_size : forall n c l fuel w, In (DSequence n c l) (definitions input) ->
  recursive (definitions input) n -> sequence_size fuel (all_defs bun) l <> Ok w.
Proof.
  intros n c l fuel w Hl R H. destruct (sequence_size_sound _ _ _ (known_sequence _ _ _ Hl) H) as (ls & L & _).
  destruct (accepted_same _ _ Ha) as (_ & _ & Hu). rewrite same_names_defs in Hu.
  apply (acc_not_reaches n); [|exact R]. constructor. intros y (c2 & l2 & m2 & c3 & l3 & H2 & Hm2 & E2 & H3).
  assert (X := NoDup_map_inj _ _ def_name _ _ _ Hu H2 Hl eq_refl). injection X as -> ->. eapply leaves_acc; eassumption.
Qed.

(** ** Other types: the computation ends *)

Lemma fold_fuel : forall fuel l acc, acc <> OutOfFuel ->
  (forall m, In m l -> member_size fuel (all_defs bun) (m_type m) <> OutOfFuel) -> fold_left (step fuel) l acc <> OutOfFuel.
Proof.
  intros fuel. induction l as [|m l IH]; intros acc Hacc H; cbn [fold_left]; [exact Hacc|]. apply IH; [|intros k Hk; apply H; right; exact Hk].
  unfold step. destruct acc as [a|e|]; cbn [bind]; [|discriminate|congruence].
  assert (G := H m (or_introl eq_refl)). destruct (member_size fuel (all_defs bun) (m_type m)); cbn [bind]; congruence.
Qed.

Lemma reaches_end : forall a b c, reaches (definitions input) a b -> nests (definitions input) b c -> reaches (definitions input) a c.
Proof.
  intros a b c R N. induction R as [a b H|a b d H R IH]; [eapply reaches_trans; [exact H|constructor; exact N]|].
  eapply reaches_trans; [exact H|]. apply IH. exact N.
Qed.

Lemma sequence_size_ends_aux : nonrecursive (definitions input) ->
  forall k visited n c l, In (DSequence n c l) (definitions input) ->
  NoDup (n :: visited) -> incl (n :: visited) (map def_name (definitions input)) ->
  (forall v, In v visited -> reaches (definitions input) v n) ->
  (length (map def_name (definitions input)) <= k + length visited)%nat ->
  forall fuel, (k <= fuel)%nat -> sequence_size fuel (all_defs bun) l <> OutOfFuel.
Proof.
  intros NR. induction k as [|k IH]; intros visited n c l Hl ND I R Len fuel Hf.
  - exfalso. assert (X := NoDup_incl_length ND I). simpl in X. lia.
  - apply fold_fuel; [discriminate|]. intros m Hm. destruct fuel as [|fuel]; [lia|].
    destruct (member_size_step _ m fuel Hl Hm) as [(n' & c' & l' & Et & Hl' & E)|(_ & E & _)]; [|exact E].
    rewrite E. assert (N : nests (definitions input) n n') by (exists c, l, m, c', l'; auto).
    apply (IH (n :: visited) n' c' l' Hl'); [| | |simpl; lia|lia].
    + constructor; [|exact ND]. intros [->|Hv].
      * apply (NR n'). constructor. exact N.
      * apply (NR n'). eapply reaches_end; [apply R; exact Hv|exact N].
    + intros x [<-|Hx]; [apply (in_map def_name) in Hl'; exact Hl'|apply I; exact Hx].
    + intros v [<-|Hv]; [constructor; exact N|]. eapply reaches_end; [apply R; exact Hv|exact N].
Qed.

Lemma sequence_size_ends : nonrecursive (definitions input) ->
  forall n c l fuel, In (DSequence n c l) (definitions input) ->
  (length (definitions input) <= fuel)%nat -> sequence_size fuel (all_defs bun) l <> OutOfFuel.
Proof.
  intros NR n c l fuel Hl Hf. apply (sequence_size_ends_aux NR (length (definitions input)) [] n c l Hl); auto.
  - constructor; [intros []|constructor].
  - intros x [<-|[]]. apply (in_map def_name) in Hl. exact Hl.
  - intros v [].
  - rewrite map_length. lia.
Qed.

End Bundle.

(** ** More fuel *)

Lemma sum_more : forall (f g : member -> result Z), (forall m x, f m = x -> x <> OutOfFuel -> g m = x) ->
  forall l acc x, fold_left (fun acc m => let* s := acc in let* x := f m in Ok (s + x)) l acc = x -> x <> OutOfFuel ->
  fold_left (fun acc m => let* s := acc in let* x := g m in Ok (s + x)) l acc = x.
Proof.
  intros f g H. induction l as [|m l IH]; intros acc x E N; cbn [fold_left] in *; [exact E|].
  destruct acc as [a|e|]; cbn [bind] in *; [|apply IH; assumption|apply IH; assumption].
  destruct (f m) as [y|e|] eqn:Ef; cbn [bind] in *.
  - rewrite (H _ _ Ef) by discriminate. cbn [bind]. apply IH; assumption.
  - rewrite (H _ _ Ef) by discriminate. cbn [bind]. apply IH; assumption.
  - exfalso. apply N. rewrite <- E. clear. induction l as [|k l IH]; [reflexivity|exact IH].
Qed.

Lemma member_size_more : forall f f' ds t x, (f <= f')%nat -> member_size f ds t = x -> x <> OutOfFuel ->
  member_size f' ds t = x.
Proof.
  induction f as [|f IH]; intros f' ds t x L E N; [cbn in E; congruence|].
  destruct f' as [|f']; [lia|]. cbn [member_size] in *. destruct (resolve ds t) as [n u|n|d|]; try exact E.
  destruct d as [n c l|n c l|n c l|n u c]; try exact E.
  apply (sum_more (fun m => member_size f ds (m_type m))); try assumption. intros m y Ey Ny. apply IH; [lia|assumption|assumption].
Qed.

Lemma sequence_size_more : forall f f' ds l x, (f <= f')%nat -> sequence_size f ds l = x -> x <> OutOfFuel ->
  sequence_size f' ds l = x.
Proof.
  intros f f' ds l x L E N. apply (sum_more (fun m => member_size f ds (m_type m))); try assumption.
  intros m y Ey Ny. apply (member_size_more f); assumption.
Qed.

Lemma sequence_size_decided : forall input bun n c l fuel,
  Forall (fun m => grammatical m = true) input -> accepted input bun ->
  nonrecursive (definitions input) -> In (DSequence n c l) (definitions input) ->
  (length (definitions input) <= fuel)%nat ->
  (exists ls, leaves (definitions input) l ls /\ sequence_size fuel (all_defs bun) l = Ok (total ls))
  \/ ((exists e, sequence_size fuel (all_defs bun) l = Err e) /\ forall ls, ~ leaves (definitions input) l ls).
Proof.
  intros input bun n c l fuel Hg Ha NR Hl Hf.
  assert (K := known_sequence input _ _ _ Hl).
  destruct (sequence_size fuel (all_defs bun) l) as [w|e|] eqn:E.
  - left. destruct (sequence_size_sound input bun Hg Ha _ _ _ K E) as (ls & L & ->). eauto.
  - right. split; [eauto|]. intros ls L. destruct (sequence_size_complete input bun Hg Ha _ _ L K) as (F & HF).
    assert (E' := HF _ (Nat.le_max_r fuel F)).
    rewrite (sequence_size_more _ _ _ _ _ (Nat.le_max_l fuel F) E) in E' by discriminate. discriminate E'.
  - exfalso. exact (sequence_size_ends input bun Hg Ha NR _ _ _ _ Hl Hf E).
Qed.

Lemma rank_nonrecursive : forall (rank : string -> nat) ds,
  (forall a b, nests ds a b -> (rank b < rank a)%nat) -> nonrecursive ds.
Proof.
  intros rank ds H n R.
  assert (X : forall a b, reaches ds a b -> (rank b < rank a)%nat).
  { intros a b T. induction T as [a b N|a b c N T IH]; [apply H; exact N|]. assert (P := H _ _ N). lia. }
  assert (P := X _ _ R). lia.
Qed.
