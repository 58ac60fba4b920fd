(** * Proofs about the exceptions that end a run *)
From Coq Require Import Lia.
From Verif Require Import Base PyStr PyNum Ast Size Grammar Processor Bundle CCommon GenCfs GenC GenBinary GenCosmos Main Source Spec_Grammar Spec_Syntax Spec_Utf8
  Spec_Source Cli Spec_Cli Tree Messages Spec_Tree Lib_proofs Str_proofs Spec_Gen Spec_Files Spec_Enum Spec_Num Num_proofs Spec_Check Spec_Bundle Spec_Report Enum_proofs Check_proofs
  Syntax3_proofs Bundle_proofs Reject_proofs Field_proofs Source_proofs Run_proofs Ends_proofs Files_proofs Note_proofs
  Cli_proofs Start_proofs Tree_proofs Tree2_proofs Tree3_proofs Report_proofs Spec_Message Message_proofs Spec_Raise.
Open Scope string_scope.
Open Scope list_scope.

(** ** Types *)
Lemma asn1_type_bad : forall t e text, type_ok t = true -> asn1_type_said t = Bad e (Some text) -> type_raises t e text.
Proof.
  intros t e text O H. assert (A := asn1_type_ok t O). assert (F := forget_asn1_type t). rewrite H in F. cbn [forget] in F.
  assert (N : ~ range_ok t) by (intros R; apply A in R as (c & R); congruence).
  unfold asn1_type_said in H. destruct t as [[[b e']|]|[[b e']|]| | | | |]; try (exfalso; apply N; exact Logic.I); cbn [type_begin type_end bound_text] in H.
  - apply then_bad in H as [H|([] & D & H)].
    + apply demand_bad in H as (L & -> & X). injection X as ->. constructor. intros D. apply num_lt_float in D. rewrite D in L. discriminate.
    + apply good_forget in D. rewrite forget_demand in D. apply assert_ok in D. apply negb_true_iff in D. assert (D' := D). apply num_lt_float in D.
      rewrite <- F in H. injection H as <-.
      assert (E : e = FloatingPointErr).
      { revert F. unfold asn1_type. cbn [type_begin type_end type_name]. rewrite D'.
        change (posix_range "REAL") with (@None (num * num)). cbn [assert negb bind String.eqb Ascii.eqb Bool.eqb].
        destruct (_ && _); [discriminate|]. destruct (_ && _); [discriminate|]. intros X. congruence. }
      subst e. constructor; [exact D|]. intros (B1 & B2). apply N. cbn [range_ok]. auto.
  - apply then_bad in H as [H|([] & D & H)].
    + apply demand_bad in H as (L & -> & X). injection X as ->. constructor. cbn [range_ok] in N. lia.
    + exfalso. apply good_forget in D. rewrite forget_demand in D. apply assert_ok in D. apply negb_true_iff in D. apply N. cbn [range_ok].
      rewrite num_lt_int in D. lia.
Qed.
Lemma process_type_bad : forall t e text, type_ok t = true -> process_type_said t = Bad e (Some text) ->
  exists s, In s (subtypes t) /\ type_raises s e text.
Proof.
  induction t as [r|r| | |k len|len t IH|n]; intros e text O H; cbn [process_type_said subtypes] in *.
  6:{ apply then_bad in H as [H|([] & _ & H)].
      - cbn [type_ok] in O. repeat (apply andb_prop in O; destruct O as [O ?]). destruct (IH e text) as (s & S1 & S2); [assumption..|].
        exists s. split; [right; exact S1|exact S2].
      - apply then_bad in H as [H|(c & _ & H)]; [|discriminate]. eexists. split; [left; reflexivity|]. apply asn1_type_bad; assumption. }
  all: apply then_bad in H as [H|([] & _ & H)]; [discriminate|]; apply then_bad in H as [H|(c & _ & H)]; [|discriminate];
    eexists; split; [left; reflexivity|]; apply asn1_type_bad; assumption.
Qed.

(** ** Comments *)
Definition comment_raises (l : list (string * comment)) (e : error) (text : string) : Prop :=
  exists k c sign, In (k, c) l /\ first_sign (cm_text c) sign /\ e = TextXSyntaxError
    /\ text = ("Comment for " ++ quoted k ++ " contains an invalid sign " ++ quoted sign ++ ": " ++ quoted (cm_text c))%string.
Lemma comment_raises_incl : forall l l' e text, incl l l' -> comment_raises l e text -> comment_raises l' e text.
Proof. intros l l' e text I (k & c & sign & A & B). exists k, c, sign. split; [apply I, A|exact B]. Qed.
Lemma not_contains : forall p s, contains p s = false -> ~ occurs p s.
Proof. intros p s H X. apply contains_spec in X. congruence. Qed.
Lemma unkeyed_said : forall c e text, comment_said None c <> Bad e (Some text).
Proof.
  intros [c|] e text; [|discriminate]. cbn [comment_said]. unfold check_comment_said.
  destruct (String.eqb _ _); [discriminate|]. repeat (destruct (contains _ _); [discriminate|]). discriminate.
Qed.
Lemma keyed_said : forall k c e text, comment_said (Some k) c = Bad e (Some text) -> comment_raises (map (pair k) (opt_list c)) e text.
Proof.
  intros k [c|] e text H; [|discriminate]. cbn [comment_said] in H. unfold check_comment_said in H.
  destruct (String.eqb _ _); [discriminate|]. destruct (contains "[" (cm_text c)) eqn:A.
  { injection H as <- <-. exists k, c, "[". split; [left; reflexivity|]. split; [|split; [reflexivity|unfold quoted; rewrite <- !string_app_assoc; reflexivity]].
    exists [], ["]"; "--"]. split; [reflexivity|]. split; [apply contains_spec, A|constructor]. }
  destruct (contains "]" (cm_text c)) eqn:B.
  { injection H as <- <-. exists k, c, "]". split; [left; reflexivity|]. split; [|split; [reflexivity|unfold quoted; rewrite <- !string_app_assoc; reflexivity]].
    exists ["["], ["--"]. split; [reflexivity|]. split; [apply contains_spec, B|repeat constructor; apply not_contains, A]. }
  destruct (contains "--" (cm_text c)) eqn:D; [|discriminate].
  injection H as <- <-. exists k, c, "--". split; [left; reflexivity|]. split; [|split; [reflexivity|unfold quoted; rewrite <- !string_app_assoc; reflexivity]].
  exists ["["; "]"], []. split; [reflexivity|]. split; [apply contains_spec, D|]. constructor; [apply not_contains, A|]. constructor; [apply not_contains, B|constructor].
Qed.
Lemma keyed_clause_eq : forall c l, keyed_clause (WC c l) = flat_map keyed_item l.
Proof. reflexivity. Qed.
Lemma wcomps_said_eq : forall c l, process_wcomps_said (WC c l) = then_ (comment_said None c) (fun _ => each process_witem_said l).
Proof.
  intros c l. cbn [process_wcomps_said]. destruct (comment_said None c); [|reflexivity]. cbn [then_].
  induction l as [|i l IH]; [reflexivity|]. cbn [each]. rewrite IH. reflexivity.
Qed.
Lemma clause_bad : forall w e text, process_wcomps_said w = Bad e (Some text) -> comment_raises (keyed_clause w) e text.
Proof.
  apply (clause_ind (fun w => forall e text, process_wcomps_said w = Bad e (Some text) -> comment_raises (keyed_clause w) e text)).
  intros c l IH e text H. rewrite wcomps_said_eq in H. apply then_bad in H as [H|([] & _ & H)]; [destruct (unkeyed_said _ _ _ H)|].
  apply each_bad in H as (a & [k v kc] & b & E & _ & H). cbn [process_witem_said] in H. rewrite keyed_clause_eq.
  assert (K : In (WI k v kc) l) by (rewrite E; apply in_or_app; right; left; reflexivity).
  assert (S : forall x, In x (keyed_item (WI k v kc)) -> In x (flat_map keyed_item l)) by (intros x X; apply in_flat_map; eauto).
  apply then_bad in H as [H|([] & _ & H)].
  - destruct v as [z|f|b'|w]; try discriminate. cbn [process_wval_said] in H. apply IH with (1 := K) in H. revert H. apply comment_raises_incl.
    intros x X. apply S. cbn [keyed_item keyed_value]. apply in_or_app. left. exact X.
  - apply keyed_said in H. revert H. apply comment_raises_incl. intros x X. apply S. cbn [keyed_item]. apply in_or_app. right. exact X.
Qed.
Lemma member_raises : forall k e text, member_ok k = true -> e <> ConsistencyError -> process_member_said k = Bad e (Some text) ->
  (exists s, In s (subtypes (m_type k)) /\ type_raises s e text) \/ comment_raises (keyed_member k) e text.
Proof.
  intros k e text O Ne H. unfold process_member_said in H. apply then_bad in H as [H|([] & _ & H)].
  { left. apply process_type_bad; [apply member_ok_type, O|exact H]. }
  right. unfold keyed_member. apply then_bad in H as [H|([] & _ & H)].
  { apply keyed_said in H. revert H. apply comment_raises_incl. intros x X. apply in_or_app. left. exact X. }
  apply then_bad in H as [H|([] & _ & H)].
  { destruct (m_with k) as [w|]; [|discriminate]. apply clause_bad in H. revert H. apply comment_raises_incl. intros x X. apply in_or_app. right. exact X. }
  apply demand_bad in H as (_ & X & _). congruence.
Qed.

(** ** Enumerations *)
Definition slot_of (n : nat) (e : enum_item) : Z := if (number e <? 0)%Z then (Z.of_nat n + number e)%Z else number e.
Lemma place_bad : forall l slots before e text, place_said l slots = Bad e (Some text) ->
  (forall i x, nth_error slots i = Some (Some x) -> In x before /\ slot_of (length slots) x = Z.of_nat i) ->
  exists x e2 z e1, l = x ++ e2 :: z /\ In e1 (before ++ x) /\ slot_of (length slots) e1 = slot_of (length slots) e2
    /\ (0 <= slot_of (length slots) e2 < Z.of_nat (length slots))%Z
    /\ e = IndexErr /\ text = ("index " ++ quoted (str_of_Z (number e2)) ++ " is defined multiple times")%string.
Proof.
  induction l as [|x l IH]; intros slots before e text H Hs; cbn [place_said] in H; [discriminate|]. rewrite e_pos_number in H.
  fold (slot_of (length slots) x) in H. destruct (_ && _) eqn:R; [|discriminate]. apply andb_prop in R as (R1 & R2). apply Z.leb_le in R1. apply Z.ltb_lt in R2.
  destruct (nth_error slots (Z.to_nat (slot_of (length slots) x))) as [[y|]|] eqn:N.
  - destruct (Hs _ _ N) as (Y1 & Y2). injection H as <- <-. exists [], x, l, y. split; [reflexivity|]. rewrite app_nil_r. split; [exact Y1|].
    split; [rewrite Y2; lia|]. split; [lia|]. split; [reflexivity|]. unfold quoted. rewrite <- !string_app_assoc. reflexivity.
  - destruct (IH _ (before ++ [x]) _ _ H) as (a & e2 & z & e1 & -> & A1 & A2).
    + intros i y. rewrite nth_error_list_set, list_set_length. destruct (Nat.eqb i _) eqn:Q.
      * apply Nat.eqb_eq in Q. destruct (Nat.ltb _ _); [|discriminate]. intros Y. injection Y as <-. split; [apply in_or_app; right; left; reflexivity|]. lia.
      * intros Y. destruct (Hs _ _ Y) as (Y1 & Y2). split; [apply in_or_app; left; exact Y1|exact Y2].
    + rewrite list_set_length in A2. exists (x :: a), e2, z, e1. split; [reflexivity|]. split; [|exact A2].
      rewrite <- app_assoc in A1. exact A1.
  - apply nth_error_None in N. lia.
Qed.
Lemma items_bad : forall l e text, map_said (fun o : option enum_item => match o with Some x => Good x | None => Bad AttributeErr None end) l <> Bad e (Some text).
Proof. intros l e text H. apply map_bad in H as (a & [x|] & b & ys & _ & _ & H); discriminate. Qed.
Lemma enumerated_raises : forall n c l e text, check_enumerated_said l = Bad e (Some text) -> definition_raises (DEnumerated n c l) e text.
Proof.
  intros n c l e text H. unfold check_enumerated_said in H. assert (M : map e_pos l = map number l) by (apply map_ext; apply e_pos_number). rewrite M in H.
  destruct (_ =? 0)%Z eqn:Z0; [discriminate|]. apply Z.eqb_neq in Z0. destruct (negb _) eqn:Z1.
  { apply negb_true_iff, Z.eqb_neq in Z1. rewrite sum_range_upto in Z1. injection H as <- <-. eapply raises_sum; [reflexivity|exact Z0|exact Z1]. }
  apply then_bad in H as [H|(s & _ & H)]; [|destruct (items_bad _ _ _ H)].
  apply place_bad with (before := []) in H as (x & e2 & z & e1 & E & I1 & S1 & S2 & -> & ->).
  - rewrite repeat_length in S1, S2. cbn [app] in I1. apply in_split in I1 as (x1 & y & ->). rewrite <- app_assoc in E. cbn [app] in E.
    eapply raises_twice; [reflexivity|exact Z0|exact E|]. unfold slot_of in S1. destruct (number e1 <? 0)%Z, (number e2 <? 0)%Z; lia.
  - intros i x X. exfalso. apply nth_error_In, repeat_spec in X. discriminate.
Qed.

(** ** Definitions and modules *)
Lemma raises_comments : forall d e text, comment_raises (keyed_comments d) e text -> definition_raises d e text.
Proof. intros d e text (k & c & sign & A & B & -> & ->). eapply raises_comment; eassumption. Qed.
Lemma definition_raised : forall d e text, definition_ok d = true -> e <> ConsistencyError -> process_definition_said d = Bad e (Some text) ->
  definition_raises d e text.
Proof.
  intros d e text O Ne H. destruct d as [n c l|n c l|n c l|n ty c]; cbn [process_definition_said] in H.
  1,2: apply then_bad in H as [H|([] & _ & H)]; [destruct (unkeyed_said _ _ _ H)|];
    apply then_bad in H as [H|([] & _ & H)]; [|discriminate];
    apply each_bad in H as (a & k & b & E & _ & K);
    (assert (Ik : In k l) by (rewrite E; apply in_or_app; right; left; reflexivity));
    (assert (Ok : member_ok k = true) by (unfold definition_ok in O; repeat (apply andb_prop in O; destruct O as [O ?]);
      match goal with X : forallb member_ok _ = true |- _ => rewrite forallb_forall in X; apply X, Ik end));
    destruct (member_raises _ _ _ Ok Ne K) as [(s & S1 & S2)|S];
    [eapply raises_type; [cbn [definition_types]; apply in_map, Ik|exact S1|exact S2]
    |apply raises_comments; revert S; apply comment_raises_incl; cbn [keyed_comments]; intros x X; apply in_flat_map; eauto].
  - apply then_bad in H as [H|([] & _ & H)]; [destruct (unkeyed_said _ _ _ H)|].
    apply then_bad in H as [H|([] & _ & H)].
    + apply each_bad in H as (a & k & b & E & _ & K). apply keyed_said in K. apply raises_comments. revert K. apply comment_raises_incl. cbn [keyed_comments].
      intros x X. apply in_flat_map. exists k. split; [rewrite E; apply in_or_app; right; left; reflexivity|exact X].
    + apply then_bad in H as [H|(l' & _ & H)]; [|discriminate]. apply enumerated_raises, H.
  - assert (T : type_ok ty = true) by (unfold definition_ok in O; repeat (apply andb_prop in O; destruct O as [O ?]); assumption).
    apply then_bad in H as [H|([] & _ & H)].
    { apply (process_type_bad _ _ _ T) in H as (s & S1 & S2). eapply raises_type; [left; reflexivity|exact S1|exact S2]. }
    apply then_bad in H as [H|([] & _ & H)]; [destruct (unkeyed_said _ _ _ H)|].
    apply then_bad in H as [H|([] & _ & H)]; [apply demand_bad in H as (_ & X & _); congruence|].
    apply then_bad in H as [H|([] & _ & H)]; [|discriminate]. exfalso. unfold check_posix_said in H.
    destruct (posix_range n) as [[pb pe]|]; [|discriminate]. destruct (type_begin ty), (type_end ty); [apply demand_bad in H as (_ & X & _)|injection H as X _..]; congruence.
Qed.
Theorem module_raised : forall m e text, grammatical m = true -> e <> ConsistencyError -> parse_module_said m = Bad e (Some text) -> module_raises m e text.
Proof.
  intros m e text G Ne H. unfold parse_module_said in H.
  apply then_bad in H as [H|([] & C1 & H)]; [destruct (unkeyed_said _ _ _ H)|].
  apply then_bad in H as [H|([] & C2 & H)].
  { exfalso. apply each_bad in H as (a & k & b & _ & _ & K). exact (unkeyed_said _ _ _ K). }
  apply then_bad in H as [H|([] & C3 & H)]; [destruct (unkeyed_said _ _ _ H)|].
  assert (Cl : forall c, comment_said None c = Good tt -> Forall clean (opt_list c)).
  { intros [c|] X; [|constructor]. apply good_forget in X. rewrite forget_comment in X. cbn [has_key check_comment_opt] in X. apply check_comment_ok in X.
    repeat constructor; apply X. }
  apply then_bad in H as [H|(ds & _ & H)].
  - apply map_bad in H as (a & d & b & ys & E & M & K). apply good_forget in M. rewrite (forget_map _ _ _ process_definition) in M by (intros; apply forget_definition).
    apply map_result_ok in M.
    assert (V : forall x, In x a -> Forall clean (definition_comments x) /\ definition_valid x).
    { intros x X. destruct (Forall2_in_l _ _ _ _ _ _ M X) as (d' & _ & P). apply process_definition_ok; [|eauto]. eapply grammatical_defs; [exact G|].
      rewrite E. apply in_or_app. left. exact X. }
    exists a, d, b. split; [exact E|]. split; [|split; [|split]].
    + rewrite !Forall_app. split; [apply Cl, C1|]. split; [|apply Cl, C3]. apply good_forget in C2.
      rewrite (forget_each _ _ process_import) in C2 by (intros; apply forget_comment). apply Forall_flat_map, Forall_forall. intros i I. apply Cl.
      apply good_forget. rewrite forget_comment. exact (proj1 (Forall_forall _ _) (proj1 (for_each_ok _ _ _) C2) i I).
    + apply Forall_flat_map, Forall_forall. intros x X. apply V, X.
    + apply Forall_forall. intros x X. apply V, X.
    + apply definition_raised; [|exact Ne|exact K]. eapply grammatical_defs; [exact G|]. rewrite E. apply in_or_app. right. left. reflexivity.
  - exfalso. apply then_bad in H as [H|([] & _ & H)]; [|discriminate]. apply each_bad in H as (a & d' & b & _ & _ & H).
    apply each_bad in H as (a1 & k & b1 & _ & _ & H). apply demand_bad in H as (_ & X & _). congruence.
Qed.

(** ** No message of its own *)
Lemma comment_silent : forall k c e, Forall clean (opt_list c) -> comment_said k c <> Bad e None.
Proof.
  intros k [c|] e F H; [|discriminate]. apply Forall_inv in F. apply check_comment_ok with (k := has_key k) in F.
  assert (X := forget_comment k (Some c)). rewrite H in X. cbn [forget check_comment_opt] in X. congruence.
Qed.
Lemma clause_silent : forall w e, Forall clean (clause_comments w) -> process_wcomps_said w <> Bad e None.
Proof.
  apply (clause_ind (fun w => forall e, Forall clean (clause_comments w) -> process_wcomps_said w <> Bad e None)).
  intros c l IH e F H. rewrite clause_comments_eq in F. apply Forall_app in F as (F1 & F2). rewrite wcomps_said_eq in H.
  apply then_bad in H as [H|([] & _ & H)]; [exact (comment_silent _ _ _ F1 H)|]. apply each_bad in H as (a & [k v kc] & b & E & _ & H).
  assert (K : In (WI k v kc) l) by (rewrite E; apply in_or_app; right; left; reflexivity).
  apply Forall_flat_map in F2. rewrite Forall_forall in F2. specialize (F2 _ K). cbn [item_comments] in F2. apply Forall_app in F2 as (F2 & F3).
  cbn [process_witem_said] in H. apply then_bad in H as [H|([] & _ & H)]; [|exact (comment_silent _ _ _ F3 H)].
  destruct v as [z|f|b'|w]; try discriminate. exact (IH k w kc K e F2 H).
Qed.
Lemma type_silent : forall t e, process_type_said t <> Bad e None.
Proof.
  assert (A : forall t e, asn1_type_said t <> Bad e None).
  { intros t e H. unfold asn1_type_said in H. apply then_bad in H as [H|([] & _ & H)].
    - destruct (type_begin t), (type_end t); try discriminate. apply demand_bad in H as (_ & _ & X). discriminate.
    - destruct (asn1_type t); discriminate. }
  induction t; intros e H; cbn [process_type_said] in H; (apply then_bad in H as [H|([] & _ & H)]; [first [discriminate|exact (IHt _ H)]|]);
    (apply then_bad in H as [H|(c & _ & H)]; [exact (A _ _ H)|discriminate]).
Qed.
Lemma demand_silent : forall b e x e', demand b e x <> Bad e' None.
Proof. intros b e x e' H. apply demand_bad in H as (_ & _ & X). discriminate. Qed.
Lemma place_silent : forall l slots e, (forall x, In x l -> (- Z.of_nat (length slots) <= number x < Z.of_nat (length slots))%Z) -> place_said l slots <> Bad e None.
Proof.
  induction l as [|x l IH]; intros slots e B H; cbn [place_said] in H; [discriminate|]. rewrite e_pos_number in H.
  assert (X := B x (or_introl eq_refl)). destruct (_ && _) eqn:R.
  - destruct (nth_error slots _) as [[y|]|]; [discriminate| |discriminate]. revert H. apply IH. rewrite list_set_length. intros y Y. apply B. right. exact Y.
  - destruct (number x <? 0)%Z eqn:N; lia.
Qed.
Lemma definition_silent : forall d e, Forall clean (definition_comments d) -> in_places d -> process_definition_said d <> Bad e None.
Proof.
  intros d e F P H. destruct d as [n c l|n c l|n c l|n ty c]; cbn [process_definition_said definition_comments] in *.
  1,2: apply Forall_app in F as (F1 & F2); apply then_bad in H as [H|([] & _ & H)]; [exact (comment_silent _ _ _ F1 H)|];
    apply then_bad in H as [H|([] & _ & H)]; [|discriminate]; apply each_bad in H as (a & k & b & E & _ & H);
    (assert (Ik : In k l) by (rewrite E; apply in_or_app; right; left; reflexivity));
    apply Forall_flat_map in F2; rewrite Forall_forall in F2; specialize (F2 _ Ik); apply Forall_app in F2 as (F2 & F3);
    unfold process_member_said in H; apply then_bad in H as [H|([] & _ & H)]; [exact (type_silent _ _ H)|];
    apply then_bad in H as [H|([] & _ & H)]; [exact (comment_silent _ _ _ F2 H)|];
    apply then_bad in H as [H|([] & _ & H)]; [destruct (m_with k); [exact (clause_silent _ _ F3 H)|discriminate]|exact (demand_silent _ _ _ _ H)].
  - apply Forall_app in F as (F1 & F2). apply then_bad in H as [H|([] & _ & H)]; [exact (comment_silent _ _ _ F1 H)|].
    apply then_bad in H as [H|([] & _ & H)].
    + apply each_bad in H as (a & k & b & E & _ & H). apply Forall_flat_map in F2. rewrite Forall_forall in F2.
      revert H. apply comment_silent, F2. rewrite E. apply in_or_app. right. left. reflexivity.
    + apply then_bad in H as [H|(l' & _ & H)]; [|discriminate]. assert (T := check_enumerated_total l). rewrite <- forget_enumerated, H in T. cbn [forget] in T.
      unfold check_enumerated_said in H. destruct (_ =? 0)%Z; [discriminate|]. destruct (negb _); [discriminate|]. apply then_bad in H as [H|(s & _ & H)].
      * revert H. apply place_silent. rewrite repeat_length. intros x X. exact (P n c l x eq_refl X).
      * apply map_bad in H as (a & [x|] & b & ys & _ & _ & H); [discriminate|]. injection H as <-. destruct T as [(l' & T)|T]; discriminate.
  - apply then_bad in H as [H|([] & _ & H)]; [exact (type_silent _ _ H)|]. apply then_bad in H as [H|([] & _ & H)]; [exact (comment_silent _ _ _ F H)|].
    apply then_bad in H as [H|([] & _ & H)]; [exact (demand_silent _ _ _ _ H)|]. apply then_bad in H as [H|([] & _ & H)]; [|discriminate].
    unfold check_posix_said in H. destruct (posix_range n) as [[pb pe]|]; [|discriminate].
    destruct (type_begin ty), (type_end ty); [exact (demand_silent _ _ _ _ H)|discriminate..].
Qed.
Lemma module_silent : forall m e, Forall clean (module_comments m) -> Forall in_places (mod_defs m) -> parse_module_said m <> Bad e None.
Proof.
  intros m e F P H. unfold module_comments in F. rewrite !Forall_app in F. destruct F as (F1 & F2 & F3 & F4). unfold parse_module_said in H.
  apply then_bad in H as [H|([] & _ & H)]; [exact (comment_silent _ _ _ F1 H)|]. apply Forall_flat_map in F2. apply Forall_flat_map in F4. rewrite Forall_forall in F2, F4, P.
  apply then_bad in H as [H|([] & _ & H)].
  { apply each_bad in H as (a & k & b & E & _ & H). revert H. apply comment_silent, F2. rewrite E. apply in_or_app. right. left. reflexivity. }
  apply then_bad in H as [H|([] & _ & H)]; [exact (comment_silent _ _ _ F3 H)|]. apply then_bad in H as [H|(ds & _ & H)].
  - apply map_bad in H as (a & d & b & ys & E & _ & H). assert (D : In d (mod_defs m)) by (rewrite E; apply in_or_app; right; left; reflexivity).
    exact (definition_silent d e (F4 d D) (P d D) H).
  - apply then_bad in H as [H|([] & _ & H)]; [|discriminate]. apply each_bad in H as (a & d & b & _ & _ & H). apply each_bad in H as (a1 & k & b1 & _ & _ & H).
    exact (demand_silent _ _ _ _ H).
Qed.

(** ** Bundles and runs *)
Section Runs.
Variable order : list string -> list string.
Hypothesis Order : set_order order.

Lemma same_imports_raise : forall input ms text, Forall2 same_module input ms -> imports_raise ms text -> imports_raise input text.
Proof.
  intros input ms text F (m & l & M & L & ->). destruct (Forall2_in_r _ _ _ _ _ _ F M) as (m0 & M0 & Nm & _ & Im & _). exists m0, l. split; [exact M0|].
  rewrite Im, (same_module_names _ _ F) in L. rewrite <- Nm. split; [exact L|reflexivity].
Qed.
Lemma build_raised : forall ms e text, build_said order ms = Bad e (Some text) -> e = SyntaxErr /\ imports_raise ms text.
Proof.
  intros ms e text H. unfold build_said in H. apply then_bad in H as [H|([] & _ & H)]; [|discriminate].
  apply each_bad in H as (a & n & b & _ & _ & H). destruct (last_index n ms) as [i|] eqn:L; [|discriminate].
  destruct (last_index_some _ _ _ L) as (m & M & E). rewrite M in H. apply demand_bad in H as (D & -> & X). injection X as ->. split; [reflexivity|].
  exists m, (order (set_diff (dependencies m) (map mod_name ms))). split; [exact (nth_error_In _ _ M)|]. split.
  - apply (lists_order order Order); [intros Q; rewrite Q in D; discriminate|]. intros x. unfold set_diff, dependencies.
    rewrite filter_In, negb_true_iff, mem_not_In, in_map_iff. split; intros ((it & A) & B); (split; [exists it; tauto|exact B]).
  - rewrite E. unfold set_text, quoted at 1. rewrite <- !string_app_assoc. reflexivity.
Qed.
Lemma validate_raised : forall b e t, validate_bundle_said order b = Bad e t -> e = ConsistencyError.
Proof.
  intros b e t H. assert (W := validate_consistency b). rewrite <- (forget_validate order), H in W. cbn in W. exact W.
Qed.
Definition reads (c : command) (texts : list string) : said bundle :=
  match c with
  | GenerateCosmos _ _ _ => cosmos_said order texts
  | GenerateCfs names | GenerateC names | GenerateBinary names _ => config_said order names texts
  end.
Lemma raised_iff : forall cwd words t e text, raised order cwd words t = Some (e, text) <->
  exists a dir texts, parse_args words = Some (a, dir) /\ read_inputs t cwd (input_paths a) = inl texts /\ reads (command_of a) texts = Bad e (Some text)
    /\ rejection (command_of a) e = Raised e.
Proof.
  intros cwd words t e text. unfold raised. split.
  - intros H. destruct (parse_args words) as [[a dir]|]; [|discriminate]. destruct (read_inputs _ _ _) as [texts|x] eqn:RI; [|discriminate].
    fold (reads (command_of a) texts) in H. destruct (reads _ texts) as [b|x [y|]] eqn:Q; [discriminate| |discriminate].
    destruct (rejection _ x) eqn:R; try discriminate. injection H as E0 E1. subst e text. exists a, dir, texts. split; [reflexivity|]. split; [exact RI|].
    assert (E : e0 = x) by (destruct (command_of a), x; cbn in R; congruence). subst. auto.
  - intros (a & dir & texts & -> & -> & Q & R). fold (reads (command_of a) texts). rewrite Q, R. reflexivity.
Qed.
Lemma forget_cosmos : forall texts, forget (cosmos_said order texts) = on_modules texts Err build_from_cosmos_config.
Proof.
  intros texts. assert (C := forget_config order Order [] texts). unfold config_said in C. unfold cosmos_said. rewrite forget_then in *.
  rewrite (forget_map _ _ _ parse_text) in * by (intros; apply forget_text). revert C. change (map_result parse_text texts) with (parse_texts texts).
  unfold on_modules. destruct (map_result read_text texts) as [ms|e|] eqn:R.
  - intros _. rewrite (parse_texts_ok _ _ R). unfold build_from_cosmos_config. destruct (parse_modules ms) as [l|e|]; [|reflexivity..]. cbn [bind].
    rewrite forget_then, (forget_build order). destruct (build l) as [b|e|]; [|reflexivity..]. cbn [bind].
    rewrite forget_then, (forget_validate order). destruct (validate_bundle b); reflexivity.
  - intros C. destruct (parse_texts texts) as [l|e'|] eqn:Pt; [|reflexivity|discriminate].
    exfalso. unfold parse_texts in Pt. clear C. revert R l Pt. clear. revert e. induction texts as [|s ts IH]; intros e R l Pt; cbn [map_result] in *; [discriminate|].
    unfold parse_text at 1 in Pt. destruct (read_text s) as [m|x|]; cbn [bind] in *; [|discriminate..].
    destruct (parse_module m); cbn [bind] in Pt; [|discriminate..]. destruct (map_result read_text ts) as [z|z|]; [discriminate| |discriminate].
    destruct (map_result parse_text ts) as [y|y|]; [|discriminate..]. exact (IH z eq_refl y eq_refl).
  - exfalso. revert R. apply map_result_total. intros z. unfold read_text. destruct (Grammar.read_module z); discriminate.
Qed.
Theorem raised_ends : forall fuel cwd words t e text, raised order cwd words t = Some (e, text) -> start_in fuel cwd words t = (t, Some (Raised e)).
Proof.
  intros fuel cwd words t e text H. apply raised_iff in H as (a & dir & texts & P & R & Q & J). unfold start_in. rewrite P, R.
  assert (Z : on_modules texts (fun e => (t, rejection (command_of a) e)) (fun ms => run_in fuel t cwd (command_of a) dir ms) = (t, rejection (command_of a) e)).
  { destruct (command_of a) as [m l o|names|names|names x]; cbn [reads] in Q.
    - assert (F := forget_cosmos texts). rewrite Q in F. cbn [forget] in F. unfold on_modules in *. destruct (map_result read_text texts) as [ms|x|].
      + cbn [run_in]. rewrite <- F. reflexivity.
      + injection F as ->. reflexivity.
      + injection F as ->. reflexivity.
    - assert (F := forget_config order Order names texts). rewrite Q in F. cbn [forget] in F. unfold on_modules in *. destruct (map_result read_text texts) as [ms|x|].
      + cbn [run_in]. rewrite <- F. reflexivity.
      + injection F as ->. reflexivity.
      + injection F as ->. reflexivity.
    - assert (F := forget_config order Order names texts). rewrite Q in F. cbn [forget] in F. unfold on_modules in *. destruct (map_result read_text texts) as [ms|x|].
      + cbn [run_in]. rewrite <- F. reflexivity.
      + injection F as ->. reflexivity.
      + injection F as ->. reflexivity.
    - assert (F := forget_config order Order names texts). rewrite Q in F. cbn [forget] in F. unfold on_modules in *. destruct (map_result read_text texts) as [ms|y|].
      + cbn [run_in]. rewrite <- F. reflexivity.
      + injection F as ->. reflexivity.
      + injection F as ->. reflexivity. }
  rewrite Z, J. reflexivity.
Qed.
Lemma reads_bad : forall c texts e text, reads c texts = Bad e (Some text) -> e <> ConsistencyError ->
  (exists ta s tr ma m, texts = ta ++ s :: tr /\ Forall2 spells ta ma /\ Forall module_valid ma /\ spells s m /\ module_raises m e text)
  \/ exists ms, Forall2 spells texts ms /\ Forall module_valid ms /\ e = SyntaxErr /\ imports_raise ms text.
Proof.
  intros c texts e text H Ne.
  assert (K : map_said parse_text_said texts = Bad e (Some text) \/ exists l, map_said parse_text_said texts = Good l /\ build_said order l = Bad e (Some text)).
  { assert (G : forall names, config_said order names texts = Bad e (Some text) -> map_said parse_text_said texts = Bad e (Some text)
      \/ exists l, map_said parse_text_said texts = Good l /\ build_said order l = Bad e (Some text)).
    { intros names Q. unfold config_said in Q. apply then_bad in Q as [Q|(l & L & Q)]; [auto|]. unfold bundle_said in Q.
      apply then_bad in Q as [Q|([] & _ & Q)].
      { exfalso. unfold unique_names_said in Q. destruct (order _) as [|x r]; [destruct (order _) as [|y s]|]; [discriminate|injection Q as X _; congruence..]. }
      apply then_bad in Q as [Q|(b & _ & Q)]; [right; eauto|]. apply then_bad in Q as [Q|([] & _ & Q)]; [exfalso; apply Ne; exact (validate_raised _ _ _ Q)|].
      exfalso. apply then_bad in Q as [Q|([] & _ & Q)]; [|discriminate]. unfold check_missing_said in Q.
      destruct (order _) as [|x r]; [destruct (order _) as [|y s]|]; [discriminate|injection Q as X _; congruence..]. }
    destruct c; cbn [reads] in H; [|eapply G; exact H..]. unfold cosmos_said in H. apply then_bad in H as [Q|(l & L & Q)]; [auto|].
    apply then_bad in Q as [Q|(b & _ & Q)]; [right; eauto|]. apply then_bad in Q as [Q|([] & _ & Q)]; [|discriminate].
    exfalso; apply Ne; exact (validate_raised _ _ _ Q). }
  destruct K as [K|(l & L & K)].
  - left. apply map_bad in K as (ta & s & tr & l & -> & L & K). apply parsed_texts in L as (ma & F & _ & V & _).
    unfold parse_text_said in K. destruct (read_module s) as [m|] eqn:R; [|discriminate]. apply Syntax3_proofs.read_module_iff in R.
    exists ta, s, tr, ma, m. split; [reflexivity|]. split; [exact F|]. split; [exact V|]. split; [exact R|].
    apply module_raised; [exact (Grammatical_proofs.spells_grammatical _ _ R)|exact Ne|exact K].
  - right. apply parsed_texts in L as (ms & F & G & V & P). apply build_raised in K as (-> & K). exists ms. split; [exact F|]. split; [exact V|]. split; [reflexivity|].
    exact (same_imports_raise _ _ _ (parse_modules_same _ _ P) K).
Qed.
Theorem raised_true : forall cwd words t e text, raised order cwd words t = Some (e, text) -> e <> ConsistencyError ->
  exists a dir, command_line words a dir
  /\ ((exists pa p pr ma m, input_paths a = pa ++ p :: pr /\ Forall2 (path_spells t cwd) pa ma /\ Forall module_valid ma /\ path_spells t cwd p m /\ module_raises m e text)
     \/ exists ms, Forall2 (path_spells t cwd) (input_paths a) ms /\ Forall module_valid ms /\ e = SyntaxErr /\ imports_raise ms text).
Proof.
  intros cwd words t e text H Ne. apply raised_iff in H as (a & dir & texts & P & R & Q & _). apply parse_args_iff in P. apply read_inputs_iff in R.
  exists a, dir. split; [exact P|].
  destruct (reads_bad _ _ _ _ Q Ne) as [(ta & s & tr & ma & m & -> & F & V & S & K)|(ms & F & V & K)].
  - left. apply Forall2_app_inv_r in R as (pa & pr & Ra & Rr & Ep). inversion Rr as [|p ? pr' ? (f & Pf & T) Rr' ]; subst. exists pa, p, pr', ma, m.
    split; [exact Ep|]. split; [eapply paths_texts; eassumption|]. split; [exact V|]. split; [exists f, s; auto|exact K].
  - right. exists ms. split; [eapply paths_texts; eassumption|auto].
Qed.
(** Inconsistencies raise for cosmos only. *)
Theorem raised_cosmos : forall cwd words t text, raised order cwd words t = Some (ConsistencyError, text) ->
  exists a dir, command_line words a dir /\ (exists m l o, command_of a = GenerateCosmos m l o)
  /\ ((exists pa p pr ma m, input_paths a = pa ++ p :: pr /\ Forall2 (path_spells t cwd) pa ma /\ Forall module_valid ma /\ path_spells t cwd p m /\ module_says m text)
     \/ exists ms, Forall2 (path_spells t cwd) (input_paths a) ms /\ Forall module_valid ms /\ (NoDup (map mod_name ms) -> bundle_says [] ms text)).
Proof.
  intros cwd words t text H. apply raised_iff in H as (a & dir & texts & P & R & Q & J). apply parse_args_iff in P. apply read_inputs_iff in R.
  exists a, dir. split; [exact P|]. destruct (command_of a) as [m l o|names|names|names x]; try discriminate J. split; [eauto|]. cbn [reads] in Q. unfold cosmos_said in Q.
  apply then_bad in Q as [K|(lm & L & K)].
  - left. apply map_bad in K as (ta & s & tr & lm & -> & L & K). apply parsed_texts in L as (ma & F & _ & V & _).
    unfold parse_text_said in K. destruct (read_module s) as [m0|] eqn:Rm; [|discriminate]. apply Syntax3_proofs.read_module_iff in Rm.
    destruct (module_bad m0 _ (Grammatical_proofs.spells_grammatical _ _ Rm) K) as (x & X & S). injection X as <-.
    apply Forall2_app_inv_r in R as (pa & pr & Ra & Rr & Ep). inversion Rr as [|p ? pr' ? (f & Pf & T) Rr' ]; subst. exists pa, p, pr', ma, m0.
    split; [exact Ep|]. split; [eapply paths_texts; eassumption|]. split; [exact V|]. split; [exists f, s; auto|exact S].
  - right. apply parsed_texts in L as (ms & F & G & V & Pm). exists ms. split; [eapply paths_texts; eassumption|]. split; [exact V|]. intros Nd.
    destruct (bundle_bad order Order [] ms lm (Some text) G Pm) as (x & X & S); [|injection X as <-; exact S].
    assert (Nl : NoDup (map mod_name lm)) by (rewrite (same_module_names _ _ (parse_modules_same _ _ Pm)); exact Nd).
    unfold bundle_said. assert (U : unique_names_said order lm [] = Good tt).
    { apply good_forget. rewrite (forget_unique order Order). apply validate_unique_ok. split; [exact Nl|constructor]. }
    rewrite U. cbn [then_]. apply then_bad in K as [K|(b & B & K)]; [rewrite K; reflexivity|]. rewrite B. cbn [then_].
    apply then_bad in K as [K|([] & _ & K)]; [|discriminate]. rewrite K. reflexivity.
Qed.
(** Which faults of a module are told. *)
Theorem told : forall cwd words t a dir pa p pr ma m, command_line words a dir ->
  input_paths a = pa ++ p :: pr -> Forall2 (path_spells t cwd) pa ma -> Forall module_valid ma -> path_spells t cwd p m ->
  Forall (fun q => exists f, path_file t cwd q f /\ is_utf8 f) pr -> ~ module_valid m ->
  Forall clean (module_comments m) -> Forall in_places (mod_defs m) ->
  printed order cwd words t <> "" \/ exists e text, raised order cwd words t = Some (e, text).
Proof.
  intros cwd words t a dir pa p pr ma m H E F V P R N C Pl.
  assert (Ga := paths_grammatical _ _ _ _ F). apply paths_modules in F as (ta & Ra & Ta). destruct P as (f & s & Pf & Pt & Ps).
  assert (Tr : exists tr, Forall2 (fun p s => exists f, path_file t cwd p f /\ text_of_file f s) pr tr).
  { clear -R. induction R as [|q pr (f & K & U) R (tr & IH)]; [exists []; constructor|]. exists (universal_newlines f :: tr). constructor; [|exact IH].
    exists f. split; [exact K|]. split; [exact U|]. apply lines_iff. reflexivity. }
  destruct Tr as (tr & Tr).
  assert (Rd : read_inputs t cwd (input_paths a) = inl (ta ++ s :: tr)).
  { apply read_inputs_iff. rewrite E. apply read_inputs_iff in Ra. apply Forall2_app; [exact Ra|]. constructor; [exists f; auto|exact Tr]. }
  apply parse_args_iff in H.
  assert (G := Grammatical_proofs.spells_grammatical _ _ Ps).
  assert (B : exists e text, parse_module_said m = Bad e (Some text)).
  { destruct (parse_module_said m) as [m'|e [text|]] eqn:Q; [|eauto|destruct (module_silent m e C Pl Q)].
    exfalso. apply N. apply module_accepted_iff; [exact G|]. apply good_forget in Q. rewrite forget_module in Q. eauto. }
  destruct B as (e & text & B).
  assert (M : map_said parse_text_said (ta ++ s :: tr) = Bad e (Some text)).
  { assert (Ma : exists l, map_said parse_text_said ta = Good l).
    { destruct (proj2 (parse_modules_iff ma Ga) V) as (ms & Hp). exists ms. apply good_forget.
      rewrite (forget_map _ _ _ parse_text) by (intros; apply forget_text). rewrite <- Hp. apply parse_texts_ok, Ta. }
    destruct Ma as (l & Ma). clear -Ma B Ps. revert l Ma. induction ta as [|x ta IH]; intros l Ma; cbn [app map_said] in *.
    - unfold parse_text_said at 1. apply Syntax3_proofs.read_module_iff in Ps. rewrite Ps, B. reflexivity.
    - destruct (parse_text_said x) as [y|]; [|discriminate]. cbn [then_] in *. destruct (map_said parse_text_said ta) as [z|]; [|discriminate].
      rewrite (IH z eq_refl). reflexivity. }
  assert (Q : reads (command_of a) (ta ++ s :: tr) = Bad e (Some text)).
  { destruct (command_of a); cbn [reads]; unfold cosmos_said, config_said; rewrite M; reflexivity. }
  destruct (rejection (command_of a) e) eqn:J.
  all: try (exfalso; destruct (command_of a), e; discriminate).
  - left. assert (X : e = ConsistencyError /\ exists names, config_command names (command_of a)).
    { unfold config_command. destruct (command_of a), e; try discriminate; (split; [reflexivity|eexists]); eauto. }
    destruct X as (-> & names & Hc). rewrite (proj2 (printed_said order cwd words t (PREFIX ++ text ++ "." ++ NL)%string (prefix_not_empty _))); [apply prefix_not_empty|].
    exists a, dir, names, (ta ++ s :: tr), text. repeat split; try assumption. destruct Hc as [Hc|[Hc|(y & Hc)]]; rewrite Hc in Q; exact Q.
  - right. exists e, text. apply raised_iff. exists a, dir, (ta ++ s :: tr). repeat split; try assumption.
    destruct (command_of a), e; cbn in *; congruence.
Qed.
End Runs.
