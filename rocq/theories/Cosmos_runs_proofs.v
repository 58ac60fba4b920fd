(** * Proofs: what the cosmos command can process *)
From Coq Require Import Lia List.
From Verif Require Import Base PyNum PyStr Ast Size Bundle GenCosmos Main Lib_proofs Spec_Enum Enum_proofs Spec_Grammar Spec_Num Spec_Check
  Spec_Bundle Check_proofs Bundle_proofs Accept_proofs Field_proofs Spec_Size Spec_Cosmos Cosmos_proofs Cosmos_text_proofs Spec_Cosmos_runs.

(** ** Modules as parsed and as read *)

Section Same.
Variables A B : list module.
Hypothesis N : Forall2 (fun a b => mod_name b = mod_name a /\ mod_imports b = mod_imports a) A B.

Lemma same_nth : forall i a, nth_error A i = Some a ->
  exists b, nth_error B i = Some b /\ mod_name b = mod_name a /\ mod_imports b = mod_imports a.
Proof.
  induction N as [|x y l l' H F IH]; intros [|i] a E; try discriminate; cbn [nth_error] in *; [|exact (IH F i a E)].
  injection E as <-. exists y. split; [reflexivity|exact H].
Qed.

Lemma same_nth_r : forall i b, nth_error B i = Some b ->
  exists a, nth_error A i = Some a /\ mod_name b = mod_name a /\ mod_imports b = mod_imports a.
Proof.
  induction N as [|x y l l' H F IH]; intros [|i] b E; try discriminate; cbn [nth_error] in *; [|exact (IH F i b E)].
  injection E as <-. exists x. split; [reflexivity|exact H].
Qed.

Lemma same_last : forall i a, last_named A i a -> exists b, last_named B i b /\ mod_name b = mod_name a /\ mod_imports b = mod_imports a.
Proof.
  intros i a (E & L). destruct (same_nth i a E) as (b & Eb & Nb & Ib). exists b. split; [|split; assumption]. split; [exact Eb|].
  intros j b' J Ej. destruct (same_nth_r j b' Ej) as (a' & Ea & Na & _). rewrite Nb, Na. exact (L j a' J Ea).
Qed.

Lemma same_imports : forall i j, imports_module A i j -> imports_module B i j.
Proof.
  intros i j (m & m' & it & L & L' & Hit & E). destruct (same_last _ _ L) as (b & Lb & _ & Ib). destruct (same_last _ _ L') as (b' & Lb' & Nb & _).
  exists b, b', it. rewrite Ib, Nb. auto.
Qed.

Lemma same_reaches : forall i j, reaches_module A i j -> reaches_module B i j.
Proof. intros i j R. induction R as [i|i j k I R IH]; [constructor|]. econstructor; [apply same_imports; exact I|exact IH]. Qed.
End Same.

Lemma same_flip : forall A B, Forall2 (fun a b => mod_name b = mod_name a /\ mod_imports b = mod_imports a) A B ->
  Forall2 (fun a b => mod_name b = mod_name a /\ mod_imports b = mod_imports a) B A.
Proof. intros A B F. induction F as [|x y l l' (H & H') F IH]; constructor; [split; congruence|exact IH]. Qed.

Lemma same_acyclic : forall A B i, Forall2 (fun a b => mod_name b = mod_name a /\ mod_imports b = mod_imports a) A B ->
  acyclic_from A i -> acyclic_from B i.
Proof.
  intros A B i F AC j k R I R'. apply same_flip in F.
  apply (AC j k); [eapply same_reaches|eapply same_imports|eapply same_reaches]; eassumption.
Qed.

(** Definitions visible in one list of modules are visible in another, up to
    the order of enumeration items. *)
Definition as_visible (A B : list module) (i : nat) : Prop :=
  (forall n u cm, visible A i (DSimple n u cm) -> visible B i (DSimple n u cm))
  /\ (forall n cm l, visible A i (DSequence n cm l) -> visible B i (DSequence n cm l))
  /\ (forall n cm l, visible A i (DEnumerated n cm l) -> exists l', visible B i (DEnumerated n cm l') /\ length l' = length l).

Definition same_place (a b : leaf) : Prop := lf_path b = lf_path a /\ lf_member b = lf_member a.

Lemma item_moves : forall A B i t u c w s, as_visible A B i -> item_type A i t u c w s ->
  exists s', item_type B i t u c w s'.
Proof.
  intros A B i t u c w s (VS & _ & VE) I. destruct I as [t c w Et Nb W|t E|k n|t n u cm c w E V W|t n cm l w E V W].
  - eexists. apply item_number; assumption.
  - eexists. apply item_boolean; assumption.
  - eexists. apply item_string.
  - eexists. eapply item_simple; [exact E|apply VS; exact V|exact W].
  - destruct (VE _ _ _ V) as (l' & V' & L). eexists. rewrite <- L in *. eapply item_enum; eassumption.
Qed.

Lemma leaves_move : forall A B i, as_visible A B i -> forall p l ls, packet_leaves A i p l ls ->
  exists ls', packet_leaves B i p l ls' /\ Forall2 same_place ls ls'.
Proof.
  intros A B i V p l ls P. induction P as [p|p m r u c w s ls I P IH|p m n cm l r ls ls' E V' P1 IH1 P2 IH2].
  - exists []. split; constructor.
  - destruct (item_moves _ _ _ _ _ _ _ _ V I) as (s' & I'). destruct IH as (ls' & P' & F).
    exists (mkleaf p m u c w s' :: ls'). split; [apply pl_leaf; assumption|]. constructor; [split; reflexivity|exact F].
  - destruct IH1 as (k1 & Q1 & F1). destruct IH2 as (k2 & Q2 & F2). exists (k1 ++ k2)%list. split; [|apply Forall2_app; assumption].
    eapply pl_nested; try eassumption. apply V. exact V'.
Qed.

Lemma place_fixed : forall a b, same_place a b -> fixed_values b = fixed_values a.
Proof. intros a b (P & M). unfold fixed_values. rewrite P, M. reflexivity. Qed.

Lemma place_one_clause : forall a b, same_place a b -> one_clause a -> one_clause b.
Proof.
  intros a b S (O1 & O2). split; [intros p q; rewrite (proj1 S); apply O1|]. intros w. rewrite (place_fixed _ _ S). apply O2.
Qed.

Lemma place_given : forall a b, same_place a b -> apid_given a -> apid_given b.
Proof.
  intros a b S. unfold apid_given. rewrite (place_fixed _ _ S), (proj2 S). exact (fun x => x).
Qed.

Lemma place_flip : forall a b, same_place a b -> same_place b a.
Proof. intros a b (P & M). split; congruence. Qed.

Lemma Forall_place : forall (P : leaf -> Prop), (forall a b, same_place a b -> P a -> P b) -> forall l l', Forall2 same_place l l' ->
  Forall P l -> Forall P l'.
Proof.
  intros P H l l' F. induction F as [|x y l l' S F IH]; intros A; [constructor|]. inversion A; subst. constructor; eauto.
Qed.

Lemma Forall_place_r : forall (P : leaf -> Prop), (forall a b, same_place a b -> P a -> P b) -> forall l l', Forall2 same_place l l' ->
  Forall P l' -> Forall P l.
Proof.
  intros P H l l' F. induction F as [|x y l l' S F IH]; intros A; [constructor|]. inversion A; subst.
  constructor; [eapply H; [apply place_flip; exact S|assumption]|auto].
Qed.

Lemma renumbered_length : forall l l', renumbered l l' -> length l' = length l.
Proof.
  intros l l' H. apply renumbered_labels, Permutation.Permutation_length in H. rewrite !map_length in H. symmetry. exact H.
Qed.

Section Moves.
Variables A B : list module.
Hypothesis S : Forall2 same_module A B.

Lemma same_frame : Forall2 (fun a b => mod_name b = mod_name a /\ mod_imports b = mod_imports a) A B.
Proof. eapply Forall2_impl; [|exact S]. intros a b (X & _ & Y & _). split; assumption. Qed.

Lemma same_defs_nth : forall i a, nth_error A i = Some a -> exists b, nth_error B i = Some b /\ same_module a b.
Proof.
  induction S as [|x y l l' H F IH]; intros [|i] a E; try discriminate; cbn [nth_error] in *; [|exact (IH F i a E)].
  injection E as <-. exists y. split; [reflexivity|exact H].
Qed.

Lemma same_defs_nth_r : forall i b, nth_error B i = Some b -> exists a, nth_error A i = Some a /\ same_module a b.
Proof.
  induction S as [|x y l l' H F IH]; intros [|i] b E; try discriminate; cbn [nth_error] in *; [|exact (IH F i b E)].
  injection E as <-. exists x. split; [reflexivity|exact H].
Qed.

Lemma visible_moves : forall i d, visible A i d -> exists d', visible B i d' /\ same_definition d d'.
Proof.
  intros i d (j & m & R & E & Hd). destruct (same_defs_nth j m E) as (b & Eb & (_ & _ & _ & F)).
  destruct (Forall2_in_l _ _ _ _ _ _ F Hd) as (d' & Hd' & Sd). exists d'. split; [|exact Sd].
  exists j, b. split; [exact (same_reaches _ _ same_frame _ _ R)|]. split; assumption.
Qed.

Lemma visible_moves_r : forall i d', visible B i d' -> exists d, visible A i d /\ same_definition d d'.
Proof.
  intros i d' (j & m & R & E & Hd). destruct (same_defs_nth_r j m E) as (a & Ea & (_ & _ & _ & F)).
  destruct (Forall2_in_r _ _ _ _ _ _ F Hd) as (d & Hda & Sd). exists d. split; [|exact Sd].
  exists j, a. split; [exact (same_reaches _ _ (same_flip _ _ same_frame) _ _ R)|]. split; assumption.
Qed.

Lemma as_visible_l : forall i, as_visible A B i.
Proof.
  intros i. repeat split.
  - intros n u cm V. destruct (visible_moves _ _ V) as (d' & V' & E). cbn in E. subst. exact V'.
  - intros n u cm V. destruct (visible_moves _ _ V) as (d' & V' & E). cbn in E. subst. exact V'.
  - intros n cm l V. destruct (visible_moves _ _ V) as (d' & V' & (l' & -> & R)). exists l'. split; [exact V'|].
    apply renumbered_length. exact R.
Qed.

Lemma as_visible_r : forall i, as_visible B A i.
Proof.
  intros i. repeat split.
  - intros n u cm V. destruct (visible_moves_r _ _ V) as (d & V' & E). destruct d; cbn in E; try (destruct E as (? & E & _)); congruence.
  - intros n u cm V. destruct (visible_moves_r _ _ V) as (d & V' & E). destruct d; cbn in E; try (destruct E as (? & E & _)); congruence.
  - intros n cm l V. destruct (visible_moves_r _ _ V) as (d & V' & E). destruct d; cbn in E; try discriminate. destruct E as (l' & E & R).
    injection E as <- <- <-. eexists. split; [exact V'|]. symmetry. apply renumbered_length. exact R.
Qed.

Lemma same_sequence_nth : forall i a b n cm l, nth_error A i = Some a -> nth_error B i = Some b ->
  (In (DSequence n cm l) (mod_defs a) <-> In (DSequence n cm l) (mod_defs b)).
Proof.
  intros i a b n cm l Ea Eb. destruct (same_defs_nth i a Ea) as (b' & Eb' & (_ & _ & _ & F)). assert (b' = b) as -> by congruence. split; intros H.
  - destruct (Forall2_in_l _ _ _ _ _ _ F H) as (d' & Hd' & E). cbn in E. subst. exact Hd'.
  - destruct (Forall2_in_r _ _ _ _ _ _ F H) as (d & Hd & E). destruct d; cbn in E; try (destruct E as (? & E & _)); congruence.
Qed.
End Moves.

(** ** Types that are looked up *)

Lemma go_info : forall f fuel b root mi di wc l k st x m, go_members f fuel b root mi di wc k l st = Ok x -> In m l ->
  exists info, member_info fuel b root (m_type m) = Ok info.
Proof.
  induction l as [|y l IH]; intros k st x m H Hm; [destruct Hm|]. cbn [go_members] in H.
  destruct (hand_down st mi di k y (given_value wc (m_key y))) as [down st1].
  destruct (member_info fuel b root (m_type y)) as [info|e|] eqn:E; cbn [bind] in H; try discriminate.
  destruct Hm as [->|Hm]; [eauto|].
  match type of H with bind ?r _ = _ => destruct r as [[es st2]|e|]; cbn [bind] in H; try discriminate end.
  destruct (go_members f fuel b root mi di wc (S k) l st2) as [z|e|] eqn:E2; cbn [bind] in H; try discriminate.
  eapply IH; eassumption.
Qed.

Section Accepted.
Variables (input : list module) (bun : bundle).
Hypothesis Hg : Forall (fun m => grammatical m = true) input.
Hypothesis Ha : accepted input bun.
Notation ms := (all_modules bun).

Lemma packets_look_up : forall fuel i m msgs st ps, nth_error ms i = Some m -> packets fuel bun i msgs st = Ok ps ->
  looks_up m msgs -> acyclic_from ms i.
Proof.
  intros fuel i m msgs. induction msgs as [|n r IH]; intros st ps Hm H (n' & cm & l & k & x & Hn & Hd & Hk & Ex); [destruct Hn|].
  cbn [packets] in H. destruct (dict_get n (map (fun d => (def_name (dr_def d), d)) (module_drefs bun i))) as [d|] eqn:E; [|discriminate].
  destruct (items_of fuel bun i d [] st) as [[es st']|e|] eqn:E1; cbn [bind] in H; try discriminate.
  destruct (packets fuel bun i r st') as [rest|e|] eqn:E2; cbn [bind] in H; try discriminate.
  destruct Hn as [->|Hn]; [|eapply IH; [exact Hm|exact E2|exists n', cm, l, k, x; auto]].
  assert (Hdd : In (DSequence n' cm l) (all_defs bun)).
  { apply in_flat_map. exists m. split; [eapply nth_error_In; exact Hm|exact Hd]. }
  destruct (message_ref _ _ Ha _ _ _ _ Hm E) as (V & Ed & _).
  assert (X : dr_def d = DSequence n' cm l).
  { apply (NoDup_map_inj _ _ _ _ _ _ (acc_unique _ _ Ha)); [|exact Hdd|exact Ed]. apply (visible_defs _ i). apply visible_ref_visible. exact V. }
  destruct fuel as [|fuel]; [discriminate|]. rewrite (items_of_sequence _ _ _ _ _ _ _ _ _ X) in E1.
  destruct (go_info _ _ _ _ _ _ _ _ _ _ _ _ E1 Hk) as (info & Ei).
  destruct (accepted_member _ _ _ _ Hg Ha Hdd Hk) as (_ & Hok & _). assert (Hc := type_ok_element _ Hok). rewrite Ex in Hc.
  rewrite (member_info_named _ _ _ _ _ Ex Hc) in Ei. intros a b R I R'.
  assert (Y := resolution_cyclic _ _ Ha _ _ _ R I R' fuel x). rewrite Y in Ei. discriminate.
Qed.
End Accepted.

(** ** The run *)

Lemma nodup_nth : forall (l : list module) i j a b, NoDup (map mod_name l) -> nth_error l i = Some a -> nth_error l j = Some b ->
  mod_name a = mod_name b -> i = j.
Proof.
  intros l i j a b N Ea Eb E. rewrite NoDup_nth_error in N. apply N.
  - rewrite map_length. apply nth_error_Some. congruence.
  - rewrite !nth_error_map, Ea, Eb. cbn. congruence.
Qed.

Lemma shown_apid : forall lf e, shows_value lf e -> one_clause lf -> apid_given lf.
Proof.
  intros lf e H (_ & O). unfold shows_value in H. unfold apid_given, apid_ok.
  destruct (m_type (lf_member lf)) eqn:Et; try (left; left; reflexivity);
  (destruct (String.eqb (m_key (lf_member lf)) "application-process-identifier") eqn:Ek;
   [|left; right; apply String.eqb_neq; exact Ek]; right; destruct H as (v & z & F & _ & NF & _);
   destruct v as [x|x|x|x]; [left; eauto|destruct (NF x eq_refl)|right; eauto|exfalso; apply (O x); rewrite F; left; reflexivity]).
Qed.

Section Run.
Variables (mn : string) (msgs : list string) (target : string) (input : list module) (fs : folder).
Hypothesis Hg : Forall (fun m => grammatical m = true) input.
Hypothesis Hn : NoDup (map mod_name input).
Hypothesis Hc : clear_apids mn msgs input.

Lemma same_looks_up : forall A B i a b, Forall2 same_module A B -> nth_error A i = Some a -> nth_error B i = Some b ->
  (looks_up a msgs <-> looks_up b msgs).
Proof.
  intros A B i a b S Ea Eb. split; intros (n & cm & l & k & x & H1 & H2 & H3); exists n, cm, l, k, x; split; try exact H1; split; try exact H3;
    apply (same_sequence_nth A B S i a b n cm l Ea Eb); exact H2.
Qed.

Lemma cosmos_needs : forall fuel fs', run fuel (GenerateCosmos mn msgs target) input fs = (fs', Ok tt) ->
  cosmos_processable mn msgs input.
Proof.
  intros fuel fs' R. destruct (cosmos_run_inv _ _ _ _ _ _ _ R) as (bun & ps & Hb & Hp & _).
  assert (Ha : accepted input bun) by (right; exact Hb).
  destruct (proj1 (cosmos_accepted_iff input Hg Hn) (ex_intro _ bun Hb)) as (V1 & V2 & V3 & V4).
  constructor; try assumption.
  destruct (accepted_same _ _ Ha) as (S & _ & _).
  destruct (cosmos_packets_inv _ _ _ _ _ Hp) as [(-> & _)|(i & m & (Hm & _) & Em & P)].
  { left. split; [reflexivity|]. intros ->. destruct (b_modules bun) eqn:E; unfold all_modules in S; rewrite E in S; inversion S.
    unfold cosmos_packets, get_module in Hp. rewrite E in Hp. discriminate. }
  right.
  destruct (same_defs_nth_r _ _ S i m Hm) as (a & Eai & Sa). exists i, a. split; [exact Eai|].
  assert (Ea : mod_name a = mn) by (destruct Sa as (X & _); congruence). split; [exact Ea|].
  split.
  - intros L. apply (same_looks_up _ _ _ _ _ S Eai Hm) in L.
    apply (same_acyclic _ _ i (same_flip _ _ (same_frame _ _ S))). eapply packets_look_up; eassumption.
  - intros n Hin. assert (Back : forall cm l, In (DSequence n cm l) (mod_defs m) -> In (DSequence n cm l) (mod_defs a)).
    { intros cm l. apply (same_sequence_nth _ _ S i a m n cm l Eai Hm). }
    destruct (Hc i a Eai Ea) as [O|O].
    + assert (Om : one_clause_each (all_modules bun) i m msgs).
      { intros x cm l ls Hx Hd P'. destruct (leaves_move _ _ i (as_visible_r _ _ S i) _ _ _ P') as (ls' & P2 & F).
        apply (same_sequence_nth _ _ S i a m x cm l Eai Hm) in Hd.
        assert (X := O x cm l ls' Hx Hd P2). eapply Forall_place_r; [exact place_one_clause|exact F|exact X]. }
      assert (D := packets_values _ _ Hg Ha _ _ _ _ _ Hm Om P).
      destruct (Forall2_in_l _ _ _ _ _ _ D Hin) as (p & _ & ((cm & l & ls & Hd & _ & _ & PL & F) & _)).
      destruct (leaves_move _ _ i (as_visible_r _ _ S i) _ _ _ PL) as (ls' & P2 & F').
      exists cm, l, ls'. split; [exact (Back _ _ Hd)|]. split; [exact P2|]. eapply Forall_place; [exact place_given|exact F'|].
      assert (OC := Om n cm l ls Hin Hd PL). clear - F OC. induction F as [|lf e ls es (_ & H) F IH]; [constructor|]. inversion OC; subst.
      constructor; [eapply shown_apid; eassumption|auto].
    + assert (D := packets_sound _ _ Hg Ha _ _ _ _ _ _ Hm P).
      destruct (Forall2_in_l _ _ _ _ _ _ D Hin) as (p & _ & (cm & l & ls & Hd & _ & _ & PL & F)).
      destruct (leaves_move _ _ i (as_visible_r _ _ S i) _ _ _ PL) as (ls' & P2 & F').
      exists cm, l, ls'. split; [exact (Back _ _ Hd)|]. split; [exact P2|].
      apply Back in Hd. assert (X := O n cm l ls' Hin Hd P2). revert X. apply Forall_impl. intros lf H. left. exact H.
Qed.

Lemma cosmos_suffices : cosmos_processable mn msgs input ->
  exists F, forall fuel, (F <= fuel)%nat -> exists fs', run fuel (GenerateCosmos mn msgs target) input fs = (fs', Ok tt).
Proof.
  intros [V1 V2 V3 V4 V5]. destruct (proj2 (cosmos_accepted_iff input Hg Hn) (conj V1 (conj V2 (conj V3 V4)))) as (bun & Hb).
  assert (Ha : accepted input bun) by (right; exact Hb). destruct (accepted_same _ _ Ha) as (S & _ & _).
  destruct V5 as [(-> & NE)|(i & a & Eai & Ea & AC & M)].
  - exists O. intros fuel _. cbn [run]. unfold with_bundle. rewrite Hb. unfold generate_cosmos, cosmos_packets, get_module.
    assert (NN : is_nil (b_modules bun) = false).
    { destruct (b_modules bun) eqn:E; [|reflexivity]. unfold all_modules in S. rewrite E in S. inversion S. congruence. }
    rewrite NN. cbn [bind]. destruct (find (fun bm => String.eqb (bm_name bm) mn) (b_modules bun)) as [bm|]; cbn [bind set_diff filter is_nil assert];
      (destruct (index_of mn 0 (b_modules bun)) as [i|]; cbn [packets bind]; eexists; reflexivity).
  - destruct (same_defs_nth _ _ S i a Eai) as (m & Hm & Sm).
    assert (Em : mod_name m = mn) by (destruct Sm as (X & _); congruence).
    assert (Fm : first_named (all_modules bun) i m).
    { split; [exact Hm|]. intros j m' L Hj E. destruct (same_defs_nth_r _ _ S j m' Hj) as (a' & Ea' & (X & _)).
      assert (j = i); [|lia]. eapply (nodup_nth input j i a' a Hn Ea' Eai). congruence. }
    eapply run_complete; [exact Hg|exact Hb|exact Fm|exact Em| |].
    + intros L. apply (same_looks_up _ _ _ _ _ S Eai Hm) in L. apply (same_acyclic _ _ i (same_frame _ _ S)). auto.
    + destruct (Hc i a Eai Ea) as [O|O]; [right|left]; intros n Hin; destruct (M n Hin) as (cm & l & ls & Hd & P & G);
        destruct (leaves_move _ _ i (as_visible_l _ _ S i) _ _ _ P) as (ls' & P' & F); exists cm, l, ls';
        (split; [apply (same_sequence_nth _ _ S i a m n cm l Eai Hm); exact Hd|]); (split; [exact P'|]).
      * assert (OC := O n cm l ls Hin Hd P). eapply (Forall_place _ (fun x y H G => conj (place_given x y H (proj1 G)) (place_one_clause x y H (proj2 G))));
          [exact F|]. clear - G OC. induction G; inversion OC; subst; constructor; auto.
      * assert (OC := O n cm l ls Hin Hd P). eapply (Forall_place (fun lf => apid_ok (lf_member lf))); [|exact F|exact OC].
        intros x y (_ & H). rewrite H. exact (fun z => z).
Qed.
End Run.

Theorem cosmos_run_iff : forall mn msgs target input fs, Forall (fun m => grammatical m = true) input ->
  NoDup (map mod_name input) -> clear_apids mn msgs input ->
  (forall fuel fs', run fuel (GenerateCosmos mn msgs target) input fs = (fs', Ok tt) -> cosmos_processable mn msgs input)
  /\ (cosmos_processable mn msgs input -> exists F, forall fuel, (F <= fuel)%nat ->
        exists fs', run fuel (GenerateCosmos mn msgs target) input fs = (fs', Ok tt)).
Proof.
  intros mn msgs target input fs Hg Hn Hc. split; [intros fuel fs'; apply cosmos_needs|apply cosmos_suffices]; assumption.
Qed.
