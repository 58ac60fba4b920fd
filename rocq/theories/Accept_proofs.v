(** * What is known about an accepted bundle *)
From Verif Require Import Base PyNum PyStr Ast Size Processor Bundle CCommon Lib_proofs
  Spec_Enum Spec_Num Spec_Check Spec_Grammar Spec_Bundle Enum_proofs Check_proofs Bundle_proofs.
Open Scope list_scope.

Lemma accepted_inv : forall input b,
  accepted input b ->
  exists ms, parse_modules input = Ok ms /\ build ms = Ok b /\ all_modules b = ms
    /\ validate_bundle b = Ok tt.
Proof.
  intros input b [(names & H)|H].
  - destruct (build_from_config_inv _ _ _ H) as (ms & A & B & C & _ & _ & D & _). exists ms. auto.
  - unfold build_from_cosmos_config in H.
    apply bind_ok in H. destruct H as (ms & Hp & H).
    apply bind_ok in H. destruct H as (b' & Hb & H).
    apply bind_ok in H. destruct H as ([] & Hv & H). injection H as <-.
    exists ms. repeat split; try assumption. apply build_modules. exact Hb.
Qed.

Lemma accepted_same : forall input b,
  accepted input b ->
  Forall2 same_module input (all_modules b)
  /\ Forall2 same_definition (definitions input) (all_defs b)
  /\ NoDup (map def_name (all_defs b)).
Proof.
  intros input b H. destruct (accepted_inv _ _ H) as (ms & Hp & Hb & Ha & Hv).
  assert (Hs := parse_modules_same _ _ Hp). rewrite Ha. split; [exact Hs|].
  unfold all_defs. rewrite Ha. fold (definitions ms). split; [apply same_definitions; exact Hs|].
  unfold validate_bundle in Hv. apply bind_ok in Hv. destruct Hv as (? & _ & Hv).
  apply check_duplicates_ok in Hv. destruct Hv as [Hv _].
  unfold all_defs in Hv. rewrite Ha in Hv. exact Hv.
Qed.

Lemma same_definition_members : forall d d',
  same_definition d d' -> members_of d' = members_of d.
Proof.
  intros [n c l|n c l|n c l|n t c] d' H; simpl in H; try (subst; reflexivity).
  destruct H as (l' & -> & _). reflexivity.
Qed.

Lemma same_simple : forall ds ds' n t c,
  Forall2 same_definition ds ds' -> (In (DSimple n t c) ds' <-> In (DSimple n t c) ds).
Proof.
  intros ds ds' n t c H. split; intros Hin.
  - destruct (Forall2_in_r _ _ _ _ _ _ H Hin) as (d & Hd & Hs).
    destruct d; simpl in Hs; try discriminate; try (rewrite Hs; exact Hd).
    destruct Hs as (? & Hs & _). discriminate.
  - destruct (Forall2_in_l _ _ _ _ _ _ H Hin) as (d & Hd & Hs).
    simpl in Hs. subst. exact Hd.
Qed.

Lemma same_choice : forall ds ds' n c l,
  Forall2 same_definition ds ds' -> (In (DChoice n c l) ds' <-> In (DChoice n c l) ds).
Proof.
  intros ds ds' n c l H. split; intros Hin.
  - destruct (Forall2_in_r _ _ _ _ _ _ H Hin) as (d & Hd & Hs).
    destruct d; simpl in Hs; try discriminate; try (rewrite Hs; exact Hd).
    destruct Hs as (? & Hs & _). discriminate.
  - destruct (Forall2_in_l _ _ _ _ _ _ H Hin) as (d & Hd & Hs).
    simpl in Hs. subst. exact Hd.
Qed.

Lemma accepted_modules_valid : forall input b,
  Forall (fun m => grammatical m = true) input -> accepted input b -> Forall module_valid input.
Proof.
  intros input b Hg H. destruct (accepted_inv _ _ H) as (ms & Hp & _).
  apply parse_modules_iff; eauto.
Qed.

(** The definitions of an accepted bundle. *)
Lemma accepted_capital : forall input b d,
  Forall (fun m => grammatical m = true) input -> accepted input b ->
  In d (all_defs b) -> is_name_capital (def_name d) = true.
Proof.
  intros input b d Hg H Hd. destruct (accepted_same _ _ H) as (_ & Hs & _).
  destruct (Forall2_in_r _ _ _ _ _ _ Hs Hd) as (d0 & Hd0 & E).
  rewrite (same_definition_name _ _ E). apply (definitions_capital input); assumption.
Qed.

Lemma accepted_member : forall input b d k,
  Forall (fun m => grammatical m = true) input -> accepted input b ->
  In d (all_defs b) -> In k (members_of d) ->
  member_ok k = true /\ type_ok (m_type k) = true /\ ranges_ok (m_type k)
  /\ element (m_type k) <> TNull.
Proof.
  intros input b d k Hg H Hd Hk. destruct (accepted_same _ _ H) as (_ & Hs & _).
  destruct (Forall2_in_r _ _ _ _ _ _ Hs Hd) as (d0 & Hd0 & E).
  rewrite (same_definition_members _ _ E) in Hk.
  split.
  - apply in_flat_map in Hd0. destruct Hd0 as (m & Hm & Hd0). rewrite Forall_forall in Hg.
    rewrite members_of_eq in Hk. exact (grammatical_members m d0 k (Hg m Hm) Hd0 Hk).
  - apply (definitions_types input d0 k Hg); try assumption. eapply accepted_modules_valid; eassumption.
Qed.

Lemma accepted_simple : forall input b n t c,
  Forall (fun m => grammatical m = true) input -> accepted input b ->
  In (DSimple n t c) (all_defs b) ->
  type_ok t = true /\ ranges_ok t /\ element t <> TNull /\ posix_ok n t.
Proof.
  intros input b n t c Hg H Hd. destruct (accepted_same _ _ H) as (_ & Hs & _).
  apply (same_simple _ _ n t c Hs) in Hd.
  assert (Hv := accepted_modules_valid _ _ Hg H).
  apply in_flat_map in Hd. destruct Hd as (m & Hm & Hd).
  rewrite Forall_forall in Hg, Hv. split.
  - assert (G := grammatical_defs m _ (Hg m Hm) Hd). unfold definition_ok in G.
    repeat (apply andb_prop in G; destruct G as [G ?]). assumption.
  - destruct (Hv m Hm) as (_ & G & _). rewrite Forall_forall in G. exact (G _ Hd).
Qed.

(** Looking up a type by name. *)
Lemma lookup_unique : forall ds d,
  NoDup (map def_name ds) -> In d ds -> lookup_def ds (def_name d) = Some d.
Proof.
  intros ds d Hn Hd. unfold lookup_def. apply dict_get_NoDup.
  - rewrite map_map. simpl. exact Hn.
  - apply in_map_iff. exists d. auto.
Qed.

Lemma lookup_In : forall ds n d, lookup_def ds n = Some d -> In d ds /\ def_name d = n.
Proof.
  intros ds n d H. unfold lookup_def in H. apply dict_get_In in H. apply in_map_iff in H.
  destruct H as (x & E & Hx). injection E as <- <-. auto.
Qed.

Lemma lookup_none : forall ds n, lookup_def ds n = None <-> ~ In n (map def_name ds).
Proof.
  intros ds n. unfold lookup_def. rewrite dict_get_None, map_map. simpl. reflexivity.
Qed.

Lemma lookup_keyword : forall ds t,
  (forall d, In d ds -> is_name_capital (def_name d) = true) ->
  type_ok t = true -> ~ is_type_name (element t) -> element t <> TNull ->
  lookup_def ds (type_name t) = None.
Proof.
  intros ds t Hc Ht Hn Hnull. destruct (lookup_def ds (type_name t)) as [d|] eqn:E; [|reflexivity].
  exfalso. apply lookup_In in E. destruct E as [Hd En]. apply Hc in Hd. rewrite En in Hd.
  apply (member_type_builtin t Ht Hnull) in Hn. apply (capital_not_keyword _ Hd).
  clear - Hn. simpl in *. intuition.
Qed.
