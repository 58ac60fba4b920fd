(** * Proofs: without cycles every run ends *)
From Coq Require Import Relations Lia List.
From Verif Require Import Base PyNum PyStr Ast Size Processor Bundle Sorter CCommon GenCosmos GenBinary Main Lib_proofs Spec_Enum Enum_proofs Spec_Grammar
  Spec_Num Num_proofs Spec_Check Check_proofs Spec_Bundle Bundle_proofs Accept_proofs Field_proofs Spec_Size Size_proofs Spec_Gen Spec_Order
  Spec_Cosmos Cosmos_proofs Cosmos_runs_proofs Run_proofs Files_proofs Spec_Layout Spec_Runs Runs2_proofs Spec_Failures Failures_proofs
  Spec_History History_runs_proofs Last_proofs.
From Verif Require Ends_proofs.

(** ** Definitions and what their members name *)

Section Contains.
Variables (input : list module) (i : nat).
Hypothesis VM : Forall module_valid input.
Hypothesis VI : last_imports_resolve input.
Hypothesis VN : NoDup (map def_name (definitions input)).
Hypothesis PI : acyclic (imports_from input).
Hypothesis PT : forall m, In m input -> acyclic (uses_local m).

(** Among the definitions visible in module [i], one has a member of the type
    the other one defines. *)
Definition contains (a b : string) : Prop :=
  exists d k d', visible input i d /\ def_name d = a /\ In k (members_of d) /\ element (m_type k) = TName b
    /\ visible input i d' /\ def_name d' = b.

Let linked (a b : string) (ma mb : module) : Prop :=
  (ma = mb /\ clos_trans string (uses_local ma) a b)
  \/ clos_trans string (imports_from input) (mod_name ma) (mod_name mb).

Lemma reached_last : forall j k, reaches_module input j k -> k = j \/ exists m, last_named input k m.
Proof.
  intros j k R. induction R as [j|j x k I R IH]; [left; reflexivity|]. right.
  destruct IH as [->|IH]; [|exact IH]. destruct I as (m & m' & it & _ & L & _). eauto.
Qed.

Lemma contains_link : forall a b, contains a b ->
  exists ma mb, In ma input /\ In mb input /\ In a (defined_names ma) /\ In b (defined_names mb) /\ linked a b ma mb.
Proof.
  intros a b (d & k & d' & (j & ma & Rj & Hj & Hd) & <- & Hk & Et & (j' & mb & Rj' & Hj' & Hd') & <-).
  assert (Na : In (def_name d) (defined_names ma)) by (apply (in_map def_name) in Hd; exact Hd).
  assert (Nb : In (def_name d') (defined_names mb)) by (apply (in_map def_name) in Hd'; exact Hd').
  assert (Hma := nth_error_In _ _ Hj). assert (Hmb := nth_error_In _ _ Hj').
  assert (Lo : In (def_name d') (defined_names ma) ->
    exists ma mb, In ma input /\ In mb input /\ In (def_name d) (defined_names ma) /\ In (def_name d') (defined_names mb) /\ linked (def_name d) (def_name d') ma mb).
  { intros Hl. exists ma, ma. split; [exact Hma|]. split; [exact Hma|]. split; [exact Na|]. split; [exact Hl|].
    left. split; [reflexivity|]. apply t_step. exists d, k. auto. }
  rewrite Forall_forall in VM. destruct (VM ma Hma) as (_ & _ & TD).
  destruct (TD _ k _ Hd Hk Et) as [Hi|Hl]; [|exact (Lo Hl)].
  assert (La : j' = j \/ exists m, last_named input j m).
  { destruct (reached_last _ _ Rj) as [->|L]; [|right; exact L]. inversion Rj' as [x E|x y z I R]; subst; [left; reflexivity|].
    right. destruct I as (m & _ & _ & L & _). exists m. exact L. }
  destruct La as [->|(m & L)]; [apply Lo; assert (mb = ma) by congruence; subst; exact Nb|].
  assert (m = ma) by (destruct L as (L & _); congruence). subst m.
  unfold imported_names in Hi. apply in_concat in Hi. destruct Hi as (ns & Hns & Hi). apply in_map_iff in Hns. destruct Hns as (it & <- & Hit).
  destruct (VI j ma it L Hit) as (x & im & (Lx & _) & En & Inc).
  exists ma, im. split; [exact Hma|]. split; [eapply nth_error_In; exact Lx|]. split; [exact Na|]. split; [apply Inc; exact Hi|].
  right. apply t_step. exists ma, it. rewrite En. auto.
Qed.

Lemma contains_links : forall a b, clos_trans string contains a b ->
  exists ma mb, In ma input /\ In mb input /\ In a (defined_names ma) /\ In b (defined_names mb) /\ linked a b ma mb.
Proof.
  intros a b H. induction H as [a b H|a b c _ (ma & mb & Ha & Hb & Na & Nb & L1) _ (mb' & mc & Hb' & Hc & Nb' & Nc & L2)]; [apply contains_link; exact H|].
  assert (mb = mb') by (eapply home; eauto). subst mb'.
  exists ma, mc. split; [exact Ha|]. split; [exact Hc|]. split; [exact Na|]. split; [exact Nc|].
  destruct L1 as [(<- & L1)|L1], L2 as [(<- & L2)|L2].
  - left. split; [reflexivity|]. eapply t_trans; eassumption.
  - right. exact L2.
  - right. exact L1.
  - right. eapply t_trans; eassumption.
Qed.

Lemma contains_acyclic : forall n, ~ clos_trans string contains n n.
Proof.
  intros n H. destruct (contains_links n n H) as (ma & mb & Ha & Hb & Na & Nb & L).
  assert (ma = mb) by (eapply home; eauto). subst mb.
  destruct L as [(_ & L)|L]; [apply (PT ma Ha); exists n; exact L|apply PI; exists (mod_name ma); exact L].
Qed.
End Contains.

(** ** Modules *)

Lemma reaches_names : forall input i j, reaches_module input i j -> forall m m', nth_error input i = Some m -> nth_error input j = Some m' ->
  m = m' \/ clos_trans string (imports_from input) (mod_name m) (mod_name m').
Proof.
  intros input i j R. induction R as [i|i j k I R IH]; intros m m' Hm Hm'; [left; congruence|]. right.
  destruct I as (a & b & it & (La & _) & (Lb & _) & Hit & E). assert (a = m) by congruence. subst a.
  assert (S : imports_from input (mod_name m) (mod_name b)).
  { exists m, it. split; [eapply nth_error_In; exact La|]. auto. }
  destruct (IH b m' Lb Hm') as [<-|T]; [apply t_step; exact S|]. eapply t_trans; [apply t_step; exact S|exact T].
Qed.

Lemma acyclic_imports : forall input, acyclic (imports_from input) -> forall i, acyclic_from input i.
Proof.
  intros input A i j k _ I R. assert (I' := I). destruct I' as (a & b & it & (La & _) & (Lb & _) & Hit & E).
  assert (S : imports_from input (mod_name a) (mod_name b)).
  { exists a, it. split; [eapply nth_error_In; exact La|]. auto. }
  apply A. destruct (reaches_names _ _ _ R _ _ Lb La) as [->|T].
  - exists (mod_name a). apply t_step. exact S.
  - exists (mod_name b). eapply t_trans; [exact T|apply t_step; exact S].
Qed.

(** ** Items *)

Lemma bit_size_ends : forall c b e, get_bit_size c b e <> OutOfFuel.
Proof. intros c b e. unfold get_bit_size. ends. Qed.

Lemma leaf_entry_ends : forall m g s c b e, leaf_entry m g s c b e <> OutOfFuel.
Proof.
  intros m g s c b e. unfold leaf_entry. destruct c as [c|]; [|discriminate].
  apply ends_bind; [apply bit_size_ends|]. intros w. apply ends_bind; [unfold subrange; ends|]. intros r.
  apply ends_bind; [|discriminate]. destruct (m_type m); try discriminate; destruct (String.eqb _ _); try discriminate;
    unfold apid_value; ends.
Qed.

Section Accepted.
Variables (input : list module) (bun : bundle).
Hypothesis Hg : Forall (fun m => grammatical m = true) input.
Hypothesis Ha : accepted input bun.
Hypothesis AC : forall i n, ~ clos_trans string (contains input i) n n.
Hypothesis AM : acyclic (imports_from input).
Notation ms := (all_modules bun).

Lemma accepted_acyclic : forall i, acyclic_from ms i.
Proof.
  intros i. apply (same_acyclic input).
  - apply same_frame. exact (proj1 (accepted_same _ _ Ha)).
  - apply acyclic_imports. exact AM.
Qed.

Lemma accepted_lengths : length ms = length input /\ length (all_defs bun) = length (definitions input).
Proof.
  destruct (accepted_same _ _ Ha) as (A & B & _). split; symmetry; eapply Forall2_length; eassumption.
Qed.

Lemma member_info_ends : forall fuel i t, (length ms < fuel)%nat -> member_info fuel bun i t <> OutOfFuel.
Proof.
  intros fuel i t L. unfold member_info. destruct (mem _ _); [discriminate|]. destruct (String.eqb _ _); [discriminate|].
  assert (G : forall n, get_definition fuel bun n i <> OutOfFuel).
  { intros n. apply (get_definition_ends ms bun (acc_build _ _ Ha) (acc_unique _ _ Ha)); [apply accepted_acyclic|exact L]. }
  destruct t; try discriminate; (apply ends_bind; [apply G|]; intros d; destruct (dr_def d); discriminate).
Qed.

Lemma items_end : forall i k path d wc st, visible ms i (dr_def d) -> NoDup (def_name (dr_def d) :: path) ->
  incl path (map def_name (all_defs bun)) ->
  (forall p, In p path -> clos_trans string (contains input i) p (def_name (dr_def d))) ->
  (S (length ms + length (all_defs bun)) <= k + length path)%nat ->
  items_of k bun i d wc st <> OutOfFuel.
Proof.
  intros i. induction k as [|k IH]; intros path d wc st Vd N I R L; assert (Hd := visible_defs _ _ _ Vd).
  { exfalso. assert (X : (length (def_name (dr_def d) :: path) <= length (map def_name (all_defs bun)))%nat).
    { apply NoDup_incl_length; [exact N|]. intros x [<-|Hx]; [apply in_map; exact Hd|apply I; exact Hx]. }
    rewrite map_length in X. simpl in X. lia. }
  assert (X : (length (def_name (dr_def d) :: path) <= length (map def_name (all_defs bun)))%nat).
  { apply NoDup_incl_length; [exact N|]. intros x [<-|Hx]; [apply in_map; exact Hd|apply I; exact Hx]. }
  rewrite map_length in X. simpl in X.
  destruct (dr_def d) as [n c l|n c l|n c l|n t c] eqn:E; try (cbn [items_of]; rewrite E; discriminate).
  rewrite (items_of_sequence _ _ _ _ _ _ _ _ _ E).
  assert (Hl : forall m, In m l -> In m (members_of (DSequence n c l))) by (intros m Hm; exact Hm).
  revert Hl. generalize 0%nat as pos. revert st. generalize l at 1 3 as r.
  induction r as [|m r IHr]; intros st pos Hl; cbn [go_members]; [discriminate|].
  destruct (hand_down st (dr_mod d) (dr_pos d) pos m (given_value wc (m_key m))) as [down st1].
  assert (Hm : In m (members_of (DSequence n c l))) by (apply Hl; left; reflexivity).
  destruct (member_info k bun i (m_type m)) as [info|e|] eqn:MI; cbn [bind]; [|discriminate|].
  2: { exfalso. revert MI. apply member_info_ends. lia. }
  assert (Y : match info with
     | Nested d' => items_of k bun i d' down st1
     | Leaf states c bg en => let* e := leaf_entry m (given_value wc (m_key m)) states c bg en in Ok ([e], st1)
     end <> OutOfFuel).
  { destruct info as [r'|states c' bg en]; [|apply ends_bind; [apply leaf_entry_ends|discriminate]].
    destruct (member_info_nested _ _ Hg Ha _ _ _ _ _ Hd Hm MI) as (Et & Vr).
    apply visible_ref_visible in Vr. assert (Dr := visible_defs _ _ _ Vr).
    assert (C : contains input i (def_name (DSequence n c l)) (def_name (dr_def r'))).
    { assert (S := proj1 (accepted_same _ _ Ha)). rewrite <- E in *. destruct (visible_moves_r _ _ S _ _ Vd) as (d0 & V0 & S0).
      destruct (visible_moves_r _ _ S _ _ Vr) as (d1 & V1 & S1).
      exists d0, m, d1. split; [exact V0|]. split; [symmetry; exact (same_definition_name _ _ S0)|].
      split; [rewrite <- (same_definition_members _ _ S0); exact Hm|]. split; [exact Et|]. split; [exact V1|]. symmetry; exact (same_definition_name _ _ S1). }
    cbn [def_name] in *. apply (IH (n :: path)).
    - exact Vr.
    - constructor; [|exact N]. intros [Q|Hp].
      + apply (AC i n). apply t_step. rewrite <- Q in C. exact C.
      + apply (AC i (def_name (dr_def r'))). eapply t_trans; [apply R; exact Hp|]. apply t_step. exact C.
    - intros x [<-|Hx]; [|apply I; exact Hx]. apply (in_map def_name) in Hd. exact Hd.
    - intros p [<-|Hp]; [apply t_step; exact C|]. eapply t_trans; [apply R; exact Hp|apply t_step; exact C].
    - cbn [length]. lia. }
  match goal with |- bind ?r _ <> _ => change (r <> OutOfFuel) in Y; destruct r as [[es st2]|e|]; cbn [bind]; [|discriminate|congruence] end.
  assert (Z := IHr st2 (S pos) (fun x Hx => Hl x (or_intror Hx))).
  apply ends_bind; [exact Z|]. intros [rest st3]. discriminate.
Qed.

Lemma packets_end : forall fuel i msgs st, (S (length ms + length (all_defs bun)) <= fuel)%nat -> packets fuel bun i msgs st <> OutOfFuel.
Proof.
  intros fuel i msgs. induction msgs as [|n r IH]; intros st L; cbn [packets]; [discriminate|].
  destruct (dict_get n _) as [d|] eqn:E; [|discriminate].
  apply ends_bind.
  - destruct (nth_error ms i) as [m|] eqn:Em.
    + destruct (message_ref _ _ Ha _ _ _ _ Em E) as (V & _ & _). apply (items_end i fuel []).
      * apply visible_ref_visible. exact V.
      * repeat constructor. intros [].
      * intros x [].
      * intros x [].
      * cbn [length]. lia.
    + exfalso. apply dict_get_In in E. apply in_map_iff in E. destruct E as (x & _ & Hx).
      apply (module_drefs_In ms bun (acc_build _ _ Ha)) in Hx. destruct Hx as (_ & m' & Hm' & _). congruence.
  - intros [es st']. apply ends_bind; [apply IH; exact L|discriminate].
Qed.
End Accepted.

(** ** Runs *)

Theorem run_ends : forall cmd input fuel fs,
  Forall (fun m => grammatical m = true) input ->
  acyclic (imports_from input) -> (forall m, In m input -> acyclic (uses_local m)) ->
  (S (length input + length (definitions input)) <= fuel)%nat ->
  snd (run fuel cmd input fs) <> OutOfFuel.
Proof.
  intros cmd input fuel fs Hg PI PT L.
  assert (C : forall names, config_command names cmd -> snd (run fuel cmd input fs) <> OutOfFuel).
  { intros names Hc. rewrite (run_config names) by exact Hc.
    destruct (build_from_config names input) as [b|e|] eqn:E; [|discriminate|exfalso; exact (Ends_proofs.ends_config names input E)].
    assert (V : bundle_valid names input) by (apply bundle_accepted_iff; eauto).
    destruct (run_leaves names cmd input fuel Hc Hg ltac:(constructor; assumption) L) as (dn & lf & _ & _ & _ & [(_ & X)|(m & r & e & _ & _ & _ & X)] & _);
      specialize (X fs); rewrite (run_config names) in X by exact Hc; rewrite E in X; rewrite X; discriminate. }
  destruct cmd as [m msgs t|names|names|names e]; [clear C|apply (C names); left; reflexivity|apply (C names); right; left; reflexivity|apply (C names); right; right; eexists; reflexivity].
  cbn [run]. unfold with_bundle.
  destruct (build_from_cosmos_config input) as [b|e|] eqn:E; [|discriminate|exfalso; exact (Ends_proofs.ends_cosmos_config input E)].
  destruct (proj1 (cosmos_accepted_any input Hg) (ex_intro _ b E)) as (V1 & V2 & _ & V4). assert (Ha : accepted input b) by (right; exact E).
  assert (X : generate_cosmos fuel b m msgs t <> OutOfFuel).
  { unfold generate_cosmos. apply ends_bind; [|discriminate]. unfold cosmos_packets.
    apply ends_bind; [unfold get_module; ends|]. intros bm. apply ends_bind; [destruct (is_nil _); discriminate|]. intros _.
    destruct (index_of m 0 (b_modules b)) as [i|]; [|discriminate]. apply (packets_end input b Hg Ha).
    - intros j. apply contains_acyclic; assumption.
    - exact PI.
    - destruct (accepted_lengths _ _ Ha) as (-> & ->). exact L. }
  destruct (generate_cosmos fuel b m msgs t); try discriminate. congruence.
Qed.
