(** * Proofs about enumerations *)
From Verif Require Import Base Ast Size Processor Bundle Lib_proofs Spec_Enum.
From Coq Require Import ZifyBool ZifyNat ZifyN.
Open Scope Z_scope.

Lemma e_pos_number : forall e, e_pos e = number e.
Proof. reflexivity. Qed.

Lemma zsum_app : forall a b, zsum (a ++ b) = zsum a + zsum b.
Proof.
  intros a b. unfold zsum. induction a as [|x r IH]; simpl; lia.
Qed.

Lemma zsum_perm : forall a b, Permutation a b -> zsum a = zsum b.
Proof.
  intros a b H. unfold zsum. induction H; simpl; lia.
Qed.

Lemma sum_range_upto : forall n, sum_range n = zsum (upto n).
Proof. reflexivity. Qed.

(** *** renumber *)

Lemma renumber_labels : forall l i, map label (renumber i l) = map label l.
Proof. induction l as [|e r IH]; intros i; simpl; [reflexivity|]. rewrite IH. reflexivity. Qed.

Lemma map_seq_shift : forall n k,
  map Z.of_nat (seq (S k) n) = map (fun z => z + 1) (map Z.of_nat (seq k n)).
Proof.
  induction n as [|n IH]; intros k; simpl; [reflexivity|].
  f_equal; [lia | apply IH].
Qed.

Lemma renumber_written : forall l k,
  map e_written (renumber (Z.of_nat k) l) = map Some (map Z.of_nat (seq k (length l))).
Proof.
  induction l as [|e r IH]; intros k; simpl; [reflexivity|].
  f_equal. rewrite <- IH. f_equal. f_equal. lia.
Qed.

Lemma renumber_numbers : forall l, map number (renumber 0 l) = upto (length l).
Proof.
  intros l. assert (H := renumber_written l 0). simpl in H.
  unfold upto. set (u := map Z.of_nat (seq 0 (length l))) in *.
  assert (G : forall a b, map e_written a = map Some b -> map number a = b).
  { induction a as [|x a IHa]; intros [|y b] E; simpl in E; try discriminate; [reflexivity|].
    injection E as Ex Eb. simpl. f_equal; [|apply IHa; exact Eb].
    unfold number. rewrite Ex. reflexivity. }
  apply G. exact H.
Qed.

(** *** place *)

Definition somes (l : list (option enum_item)) : list enum_item :=
  flat_map (fun o => match o with Some e => [e] | None => [] end) l.

Lemma somes_app : forall a b, somes (a ++ b) = (somes a ++ somes b)%list.
Proof. intros. unfold somes. apply flat_map_app. Qed.

Lemma somes_length : forall l, (length (somes l) <= length l)%nat.
Proof.
  induction l as [|[e|] r IH]; simpl; lia.
Qed.

Lemma somes_full : forall l,
  length (somes l) = length l -> l = map Some (somes l).
Proof.
  induction l as [|[e|] r IH]; simpl; intros H; [reflexivity| |].
  - f_equal. apply IH. lia.
  - pose proof (somes_length r). lia.
Qed.

Lemma somes_list_set : forall i e slots,
  nth_error slots i = Some None ->
  Permutation (somes (list_set i (Some e) slots)) (e :: somes slots).
Proof.
  intros i e slots. revert i. induction slots as [|o r IH]; intros [|i] H; simpl in H;
    try discriminate.
  - injection H as ->. simpl. reflexivity.
  - specialize (IH _ H). destruct o as [x|]; simpl.
    + rewrite IH. constructor.
    + exact IH.
Qed.

(** Slot used for an item among [n] slots. *)
Definition slot (n : Z) (e : enum_item) : Z :=
  if number e <? 0 then n + number e else number e.

Lemma place_ok : forall l slots slots',
  place l slots = Ok slots' ->
  length slots' = length slots
  /\ Permutation (somes slots') (l ++ somes slots)
  /\ forall i e, nth_error slots' i = Some (Some e) ->
       nth_error slots i = Some (Some e) \/
       (In e l /\ slot (Z.of_nat (length slots)) e = Z.of_nat i).
Proof.
  induction l as [|e r IH]; intros slots slots' H; simpl in H.
  - injection H as <-. repeat split; auto.
  - change (e_pos e) with (number e) in H.
    fold (slot (Z.of_nat (length slots)) e) in H.
    set (i := slot (Z.of_nat (length slots)) e) in *.
    destruct ((0 <=? i) && (i <? Z.of_nat (length slots))) eqn:Ei; [|discriminate].
    destruct (nth_error slots (Z.to_nat i)) as [[x|]|] eqn:En; try discriminate.
    apply IH in H. destruct H as (Hl & Hp & Hn).
    rewrite list_set_length in Hl, Hn. repeat split.
    + exact Hl.
    + rewrite Hp. rewrite (somes_list_set _ _ _ En).
      simpl. symmetry. apply Permutation_middle.
    + intros k x Hk. destruct (Hn k x Hk) as [H|[H1 H2]].
      * rewrite nth_error_list_set in H.
        destruct (Nat.eqb k (Z.to_nat i)) eqn:Ek.
        -- destruct (Nat.ltb (Z.to_nat i) (length slots)); [|discriminate].
           injection H as <-. right. split; [left; reflexivity|]. fold i. lia.
        -- left. exact H.
      * right. split; [right; exact H1 | exact H2].
Qed.

Lemma somes_repeat : forall n, somes (repeat None n) = [].
Proof. induction n; simpl; auto. Qed.

Lemma map_result_somes : forall l l',
  map_result (fun o : option enum_item =>
                match o with Some e => Ok e | None => Err AttributeErr end) (map Some l) = Ok l'
  <-> l' = l.
Proof.
  intros l l'. rewrite map_result_ok. split.
  - revert l'. induction l as [|x r IH]; intros l' H; inversion H; subst; [reflexivity|].
    f_equal; [congruence | apply IH; assumption].
  - intros ->. induction l as [|x r IH]; simpl; constructor; auto.
Qed.

(** Numbers from slots: negative numbers lower the sum by [n] each. *)
Lemma zsum_slots : forall n l,
  exists k, 0 <= k
  /\ zsum (map (slot n) l) = zsum (map number l) + n * k
  /\ (k = 0 -> map (slot n) l = map number l).
Proof.
  intros n l. induction l as [|e r (k & Hk & Hs & Hz)].
  - exists 0. simpl. repeat split; lia.
  - assert (Hc : forall a x, zsum (a :: x) = a + zsum x) by reflexivity.
    simpl map. rewrite !Hc. destruct (number e <? 0) eqn:E.
    + assert (Hse : slot n e = n + number e) by (unfold slot; rewrite E; reflexivity).
      exists (k + 1). repeat split; lia.
    + assert (Hse : slot n e = number e) by (unfold slot; rewrite E; reflexivity).
      exists k. repeat split; try lia.
      intros Hk0. f_equal; [exact Hse | apply Hz; exact Hk0].
Qed.

Lemma nth_error_ext' : forall A (l l' : list A),
  (forall i, nth_error l i = nth_error l' i) -> l = l'.
Proof.
  induction l as [|x l IH]; intros [|y l'] H; [reflexivity| | |].
  - specialize (H 0%nat). discriminate.
  - specialize (H 0%nat). discriminate.
  - assert (H0 := H 0%nat). simpl in H0. injection H0 as ->. f_equal.
    apply IH. intros i. exact (H (S i)).
Qed.

Lemma nth_error_seq : forall n k i, (i < n)%nat -> nth_error (seq k n) i = Some (k + i)%nat.
Proof.
  induction n as [|n IH]; intros k i H; [lia|].
  destruct i as [|i]; simpl; [f_equal; lia|]. rewrite IH by lia. f_equal. lia.
Qed.

Lemma nth_error_upto : forall n i, (i < n)%nat -> nth_error (upto n) i = Some (Z.of_nat i).
Proof.
  intros n i H. unfold upto. rewrite nth_error_map, nth_error_seq by exact H.
  reflexivity.
Qed.

Lemma upto_length : forall n, length (upto n) = n.
Proof. intros. unfold upto. rewrite map_length, seq_length. reflexivity. Qed.

Lemma In_upto : forall n z, In z (upto n) <-> 0 <= z < Z.of_nat n.
Proof.
  intros n z. unfold upto. rewrite in_map_iff. split.
  - intros (x & <- & H). apply in_seq in H. lia.
  - intros H. exists (Z.to_nat z). rewrite in_seq. lia.
Qed.

Lemma NoDup_upto : forall n, NoDup (upto n).
Proof.
  intros n. unfold upto. apply FinFun.Injective_map_NoDup; [|apply seq_NoDup].
  intros x y H. lia.
Qed.

(** The items end up in the slots of their numbers. *)
Lemma placed : forall l slots,
  place l (repeat None (length l)) = Ok slots ->
  exists l', slots = map Some l' /\ Permutation l' l
    /\ map (slot (Z.of_nat (length l))) l' = upto (length l).
Proof.
  intros l slots H. apply place_ok in H. rewrite repeat_length, somes_repeat, app_nil_r in H.
  destruct H as (Hl & Hp & Hn).
  assert (Hf : slots = map Some (somes slots)).
  { apply somes_full. rewrite (Permutation_length Hp). congruence. }
  exists (somes slots). split; [exact Hf|]. split; [exact Hp|].
  assert (Hls : length (somes slots) = length l) by apply (Permutation_length Hp).
  apply nth_error_ext'. intros i.
  destruct (Nat.ltb i (length l)) eqn:Ei.
  - apply Nat.ltb_lt in Ei. rewrite nth_error_upto by exact Ei.
    rewrite nth_error_map.
    destruct (nth_error (somes slots) i) as [e|] eqn:E.
    + simpl. f_equal.
      assert (Hs : nth_error slots i = Some (Some e)).
      { rewrite Hf, nth_error_map, E. reflexivity. }
      destruct (Hn _ _ Hs) as [Hr|[_ Hr]]; [|exact Hr].
      exfalso. apply nth_error_In in Hr. apply repeat_spec in Hr. discriminate.
    + apply nth_error_None in E. lia.
  - apply Nat.ltb_ge in Ei.
    assert (E1 : nth_error (map (slot (Z.of_nat (length l))) (somes slots)) i = None)
      by (apply nth_error_None; rewrite map_length; lia).
    assert (E2 : nth_error (upto (length l)) i = None)
      by (apply nth_error_None; rewrite upto_length; lia).
    congruence.
Qed.

Theorem check_enumerated_ok : forall l l',
  check_enumerated l = Ok l' ->
  (zsum (map number l) = 0 /\ l' = renumber 0 l)
  \/ (zsum (map number l) <> 0 /\ Permutation l l' /\ map number l' = upto (length l)).
Proof.
  intros l l' H. unfold check_enumerated in H.
  change (map e_pos l) with (map number l) in H.
  destruct (zsum (map number l) =? 0) eqn:E0.
  - left. injection H as <-. split; [lia | reflexivity].
  - right. split; [lia|].
    destruct (zsum (map number l) =? sum_range (length l)) eqn:E1; simpl in H; [|discriminate].
    inv_ok. destruct (placed _ _ H0) as (l1 & -> & Hp & Hm).
    apply map_result_somes in H. subst l'. split; [symmetry; exact Hp|].
    destruct (zsum_slots (Z.of_nat (length l)) l1) as (k & Hk & Hs & Hz).
    assert (k = 0).
    { rewrite Hm in Hs. rewrite sum_range_upto in E1.
      rewrite (zsum_perm _ _ (Permutation_map number Hp)) in Hs.
      destruct l as [|x l]; [simpl in *; lia|]. simpl length in *. nia. }
    rewrite <- Hm. symmetry. apply Hz. assumption.
Qed.

(** Completeness. *)
Lemma place_complete : forall l slots,
  NoDup (map number l) ->
  (forall e, In e l -> 0 <= number e < Z.of_nat (length slots)
     /\ nth_error slots (Z.to_nat (number e)) = Some None) ->
  exists slots', place l slots = Ok slots'.
Proof.
  induction l as [|e r IH]; intros slots Hd H; simpl.
  - exists slots. reflexivity.
  - destruct (H e (or_introl eq_refl)) as [Hr Hn].
    inversion Hd as [|? ? Hx Hd']; subst.
    change (e_pos e) with (number e).
    assert (E : (number e <? 0) = false) by lia. rewrite E.
    assert (E2 : (0 <=? number e) && (number e <? Z.of_nat (length slots)) = true) by lia.
    rewrite E2, Hn. apply IH; [exact Hd'|].
    intros x Hx'. destruct (H x (or_intror Hx')) as [Hxr Hxn].
    rewrite list_set_length. split; [exact Hxr|].
    rewrite nth_error_list_set.
    destruct (Nat.eqb (Z.to_nat (number x)) (Z.to_nat (number e))) eqn:En; [|exact Hxn].
    apply Nat.eqb_eq in En. exfalso. apply Hx.
    replace (number e) with (number x) by lia. apply in_map. exact Hx'.
Qed.

Theorem check_enumerated_complete : forall l,
  Permutation (map number l) (upto (length l)) ->
  exists l', check_enumerated l = Ok l'.
Proof.
  intros l H. unfold check_enumerated. change (map e_pos l) with (map number l).
  destruct (zsum (map number l) =? 0) eqn:E0; [eexists; reflexivity|].
  rewrite sum_range_upto, (zsum_perm _ _ H), Z.eqb_refl. simpl.
  destruct (place_complete l (repeat None (length l))) as (slots & Hs).
  - eapply Permutation_NoDup; [symmetry; exact H | apply NoDup_upto].
  - intros e He. rewrite repeat_length.
    assert (Hin : In (number e) (upto (length l))).
    { eapply Permutation_in; [exact H|]. apply in_map. exact He. }
    apply In_upto in Hin. split; [exact Hin|].
    apply nth_error_repeat. lia.
  - destruct (placed _ _ Hs) as (l1 & -> & _ & _). rewrite Hs. simpl.
    exists l1. apply map_result_somes. reflexivity.
Qed.

(** The only error is IndexError. *)
Lemma place_err : forall l slots, (exists s, place l slots = Ok s) \/ place l slots = Err IndexErr.
Proof.
  induction l as [|e r IH]; intros slots; cbn [place]; [left; eexists; reflexivity|].
  destruct (_ && _); [|right; reflexivity].
  destruct (nth_error slots _) as [[x|]|]; auto.
Qed.

Theorem check_enumerated_total : forall l,
  (exists l', check_enumerated l = Ok l') \/ check_enumerated l = Err IndexErr.
Proof.
  intros l. unfold check_enumerated.
  destruct (_ =? 0); [left; eexists; reflexivity|].
  destruct (negb _); [right; reflexivity|].
  destruct (place_err l (repeat None (length l))) as [(s & Hs)|Hs]; rewrite Hs; simpl; [|auto].
  left. destruct (placed _ _ Hs) as (l1 & -> & _ & _). exists l1.
  apply map_result_somes. reflexivity.
Qed.

Theorem check_enumerated_iff : forall l,
  check_enumerated l = Err IndexErr <->
  zsum (map number l) <> 0 /\ ~ Permutation (map number l) (upto (length l)).
Proof.
  intros l. split.
  - intros H. split.
    + intros E. unfold check_enumerated in H. change (map e_pos l) with (map number l) in H.
      rewrite E in H. discriminate.
    + intros Hp. destruct (check_enumerated_complete l Hp) as (l' & H'). congruence.
  - intros [H0 Hp]. destruct (check_enumerated_total l) as [(l' & H)|H]; [|exact H].
    exfalso. apply check_enumerated_ok in H. destruct H as [[H _]|(_ & H1 & H2)]; [auto|].
    apply Hp. rewrite <- H2. apply Permutation_map. exact H1.
Qed.

(** ** Modules *)

(** Parsing leaves all definitions but enumerations as they are. *)
Lemma process_definition_inv : forall d d',
  process_definition d = Ok d' ->
  match d with
  | DEnumerated n c l => exists l', d' = DEnumerated n c l' /\ check_enumerated l = Ok l'
  | _ => d' = d
  end.
Proof.
  intros [n c l|n c l|n c l|n t c] d' H; simpl in H; inv_ok; try reflexivity.
  eexists. split; [reflexivity | assumption].
Qed.

Lemma parse_module_defs : forall m m',
  parse_module m = Ok m' ->
  Forall2 (fun d d' => process_definition d = Ok d') (mod_defs m) (mod_defs m')
  /\ mod_name m' = mod_name m /\ mod_imports m' = mod_imports m
  /\ mod_comment m' = mod_comment m /\ mod_comment_import m' = mod_comment_import m.
Proof.
  intros m m' H. unfold parse_module in H. inv_ok. simpl.
  apply map_result_ok in H3. auto.
Qed.

(** ** Widths *)

Lemma least_width_unique : forall v w1 w2, least_width w1 v -> least_width w2 v -> w1 = w2.
Proof.
  intros v w1 w2 (A1 & B1 & C1) (A2 & B2 & C2).
  apply Z.le_antisymm; [apply C1|apply C2]; assumption.
Qed.

Lemma bit_length_least : forall v, 0 <= v -> least_width (bit_length v) v.
Proof.
  intros v Hv. unfold least_width, bit_length.
  destruct (v =? 0) eqn:E.
  - assert (v = 0) by lia. subst. repeat split; intros; try lia.
  - rewrite Z.abs_eq by lia.
    assert (Hp : 0 < v) by lia. pose proof (Z.log2_spec v Hp) as [H1 H2].
    pose proof (Z.log2_nonneg v). repeat split.
    + lia.
    + replace (Z.log2 v + 1) with (Z.succ (Z.log2 v)) by lia. exact H2.
    + intros w' Hw Hlt.
      assert (Hlog : Z.log2 v < w') by (apply Z.log2_lt_pow2; lia). lia.
Qed.

Lemma fold_max_spec : forall l x,
  (forall y, In y (x :: l) -> y <= fold_left Z.max l x) /\ In (fold_left Z.max l x) (x :: l).
Proof.
  induction l as [|a l IH]; intros x; simpl.
  - split; [intros y [->|[]]; lia | auto].
  - destruct (IH (Z.max x a)) as [H1 H2]. split.
    + intros y [->|[->|Hy]].
      * specialize (H1 (Z.max y a) (or_introl eq_refl)). lia.
      * specialize (H1 (Z.max x y) (or_introl eq_refl)). lia.
      * apply H1. right. exact Hy.
    + destruct H2 as [H2|H2]; [|tauto].
      rewrite <- H2. destruct (Z.max_spec x a) as [[_ ->]|[_ ->]]; auto.
Qed.

(** The width of an enumeration numbered 0..n-1, n > 0. *)
Lemma enum_size_width : forall l,
  Permutation (map number l) (upto (length l)) -> l <> [] ->
  exists w, enum_size l = Ok w /\ least_width w (Z.of_nat (length l) - 1).
Proof.
  intros l Hp Hl. unfold enum_size. change (map e_pos l) with (map number l).
  destruct (map number l) as [|x r] eqn:E; [destruct l; [congruence|discriminate]|].
  simpl. eexists. split; [reflexivity|].
  destruct (fold_max_spec r x) as [H1 H2].
  assert (Hlen : (0 < length l)%nat) by (destruct l; [congruence | simpl; lia]).
  assert (Hm : fold_left Z.max r x = Z.of_nat (length l) - 1).
  { apply Z.le_antisymm.
    - assert (Hin := Permutation_in _ Hp H2). apply In_upto in Hin. lia.
    - apply H1. eapply Permutation_in; [symmetry; exact Hp|]. apply In_upto. lia. }
  rewrite Hm. apply bit_length_least. lia.
Qed.

(** ** Statements *)

Lemma written_numbers : forall l,
  fully_numbered l -> map e_written l = map Some (map number l).
Proof.
  intros l H. induction H as [|e r (z & Hz) _ IH]; simpl; [reflexivity|].
  rewrite IH. unfold number. rewrite Hz. reflexivity.
Qed.

Lemma renumber_id : forall l i,
  fully_numbered l -> map number l = map (fun k => i + Z.of_nat k) (seq 0 (length l)) ->
  renumber i l = l.
Proof.
  induction l as [|e r IH]; intros i Hf Hn; simpl in *; [reflexivity|].
  inversion Hf as [|? ? (z & Hz) Hr]; subst. injection Hn as He Hn.
  rewrite IH; [|exact Hr|].
  - f_equal. unfold set_pos. destruct e as [k w c]. simpl in *. rewrite Hz.
    unfold number in He. simpl in He. rewrite Hz in He. subst. repeat f_equal. lia.
  - rewrite Hn. rewrite <- seq_shift, map_map. apply map_ext. intros a. lia.
Qed.

Definition enum_kept (d d' : definition) : Prop :=
  match d with
  | DEnumerated n c l =>
      exists l', d' = DEnumerated n c l' /\ renumbered l l'
  | _ => d' = d
  end.

Lemma enum_accepted : forall l l',
  check_enumerated l = Ok l' ->
  renumbered l l'.
Proof.
  intros l l' H. destruct (check_enumerated_ok _ _ H) as [[Z ->]|(Z & Hp & Hn)].
  - split; [apply renumber_numbers|]. split; [|intros N; destruct (N Z)]. intros _. split; [apply renumber_labels|].
    clear. generalize 0 at 1. induction l as [|e r IH]; intros i; simpl; constructor; [eexists; reflexivity|apply IH].
  - split; [exact Hn|]. split; [intros N; destruct (Z N)|]. intros _. exact Hp.
Qed.

Lemma renumbered_labels : forall l l', renumbered l l' -> Permutation (map label l) (map label l').
Proof.
  intros l l' (_ & A & B). destruct (Z.eq_dec (fold_right Z.add 0 (map number l)) 0) as [E|E].
  - destruct (A E) as (-> & _). reflexivity.
  - apply Permutation_map. exact (B E).
Qed.

Lemma renumbered_length : forall l l', renumbered l l' -> length l' = length l.
Proof. intros l l' (H & _). rewrite <- (map_length number l'), H. apply upto_length. Qed.

(** [renumbered] determines the result. *)
Lemma map_number_inj : forall l1 l2, map number l1 = map number l2 -> fully_numbered l1 -> fully_numbered l2 ->
  map label l1 = map label l2 -> l1 = l2.
Proof.
  induction l1 as [|e l1 IH]; intros [|e' l2] N F1 F2 L; try discriminate; [reflexivity|].
  simpl in N, L. injection N as N1 N2. injection L as L1 L2 L3. inversion F1 as [|? ? (z & Z1) F1']. inversion F2 as [|? ? (z' & Z2) F2'].
  f_equal; [|apply IH; assumption]. unfold number in N1. rewrite Z1, Z2 in N1. destruct e as [k w c], e' as [k' w' c']. simpl in *. congruence.
Qed.

Lemma sorted_unique : forall l1 l2, Permutation l1 l2 -> map number l1 = map number l2 -> NoDup (map number l1) -> l1 = l2.
Proof.
  intros l1 l2 P N D. apply nth_error_ext'. intros i.
  assert (E : nth_error (map number l1) i = nth_error (map number l2) i) by (rewrite N; reflexivity).
  rewrite !nth_error_map in E. destruct (nth_error l1 i) as [x|] eqn:E1, (nth_error l2 i) as [y|] eqn:E2; simpl in E; try discriminate; [|reflexivity].
  f_equal. injection E as E. apply nth_error_In in E1, E2. apply (Permutation_in _ (Permutation_sym P)) in E2.
  clear - D E E1 E2. induction l1 as [|a l IH]; [destruct E1|]. simpl in D. inversion D as [|? ? D1 D2].
  destruct E1 as [->|E1], E2 as [->|E2]; auto.
  - destruct D1. rewrite E. apply in_map. exact E2.
  - destruct D1. rewrite <- E. apply in_map. exact E1.
Qed.

Lemma renumbered_unique : forall l l1 l2, renumbered l l1 -> renumbered l l2 -> l1 = l2.
Proof.
  intros l l1 l2 (N1 & A1 & B1) (N2 & A2 & B2). destruct (Z.eq_dec (fold_right Z.add 0 (map number l)) 0) as [E|E].
  - destruct (A1 E), (A2 E). apply map_number_inj; congruence.
  - apply sorted_unique; [rewrite <- (B1 E); exact (B2 E)|congruence|]. rewrite N1. apply NoDup_upto.
Qed.

Lemma parse_module_enums : forall m m',
  parse_module m = Ok m' -> Forall2 enum_kept (mod_defs m) (mod_defs m').
Proof.
  intros m m' H. apply parse_module_defs in H. destruct H as [H _].
  eapply Forall2_impl; [|exact H]. intros d d' Hd.
  apply process_definition_inv in Hd. destruct d as [n c l|n c l|n c l|n t c]; simpl; try exact Hd.
  destruct Hd as (l' & -> & Hl). exists l'. split; [reflexivity|]. apply enum_accepted. exact Hl.
Qed.

Lemma parse_module_bad_enum : forall m n c l,
  In (DEnumerated n c l) (mod_defs m) ->
  zsum (map number l) <> 0 -> ~ Permutation (map number l) (upto (length l)) ->
  forall m', parse_module m <> Ok m'.
Proof.
  intros m n c l Hin Hs Hp m' H. apply parse_module_defs in H. destruct H as [H _].
  destruct (Forall2_in_l _ _ _ _ _ _ H Hin) as (d' & _ & Hd).
  apply process_definition_inv in Hd. destruct Hd as (l' & _ & Hl).
  assert (E : check_enumerated l = Err IndexErr) by (apply check_enumerated_iff; auto).
  congruence.
Qed.

Lemma zsum_upto_pos : forall n, (2 <= n)%nat -> zsum (upto n) <> 0.
Proof.
  intros n Hn. assert (H : 1 <= zsum (upto n)); [|lia].
  assert (G : forall l, (forall z, In z l -> 0 <= z) -> In 1 l -> 1 <= zsum l).
  { clear. induction l as [|z l IH]; intros Hp Hi; [destruct Hi|].
    change (zsum (z :: l)) with (z + zsum l).
    assert (Hz : 0 <= zsum l).
    { clear IH Hi. assert (Hl : forall z, In z l -> 0 <= z) by (intros; apply Hp; right; auto).
      clear Hp. induction l as [|a l IH]; [unfold zsum; simpl; lia|].
      change (zsum (a :: l)) with (a + zsum l).
      assert (0 <= a) by (apply Hl; left; auto).
      assert (0 <= zsum l) by (apply IH; intros; apply Hl; right; auto). lia. }
    destruct Hi as [->|Hi]; [lia|].
    assert (1 <= zsum l) by (apply IH; [intros; apply Hp; right; auto | exact Hi]).
    assert (0 <= z) by (apply Hp; left; auto). lia. }
  apply G.
  - intros z Hz. apply In_upto in Hz. lia.
  - apply In_upto. lia.
Qed.

(** When explicit numbers survive. *)
Lemma enum_explicit : forall l l',
  check_enumerated l = Ok l' -> fully_numbered l ->
  (Permutation (map number l) (upto (length l)) /\ Permutation l l')
  \/ (~ Permutation (map number l) (upto (length l)) /\ zsum (map number l) = 0
      /\ map label l' = map label l /\ map number l' = upto (length l)
      /\ ~ Permutation l l').
Proof.
  intros l l' H Hf. destruct (check_enumerated_ok _ _ H) as [[H0 ->]|(H0 & Hp & Hn)].
  - destruct (Nat.le_gt_cases (length l) 1) as [Hl|Hl].
    + left. destruct l as [|e [|e2 r]]; simpl in *; [split; constructor| |lia].
      assert (number e = 0) by lia.
      rewrite H1. split; [reflexivity|].
      assert (E : renumber 0 [e] = [e]) by (apply renumber_id; [exact Hf | simpl; rewrite H1; reflexivity]).
      simpl in E. rewrite E. reflexivity.
    + right.
      assert (Hnp : ~ Permutation (map number l) (upto (length l))).
      { intros Hp. apply zsum_perm in Hp. apply (zsum_upto_pos (length l)); lia. }
      split; [exact Hnp|]. split; [exact H0|]. split; [apply renumber_labels|].
      split; [apply renumber_numbers|].
      intros Hp. apply Hnp. rewrite <- renumber_numbers. apply Permutation_map. exact Hp.
  - left. split; [|exact Hp]. rewrite <- Hn. apply Permutation_map. exact Hp.
Qed.
