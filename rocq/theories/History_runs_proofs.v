(** * Proofs: runs of the cosmos command, whatever the clauses say *)
From Coq Require Import Lia List.
From Verif Require Import Base PyNum PyStr Ast Size Bundle GenCosmos Main Lib_proofs Spec_Enum Enum_proofs Spec_Grammar Spec_Num Spec_Check
  Spec_Bundle Check_proofs Bundle_proofs Accept_proofs Field_proofs Spec_Size Spec_Cosmos Cosmos_proofs Cosmos_text_proofs
  Spec_Cosmos_runs Cosmos_runs_proofs Spec_History Last_proofs History_proofs.
Open Scope list_scope.

(** ** Texts *)

Lemma value_shown : forall lf e v, shows lf e -> value_given (lf_member lf) (lf_bits lf) v e -> shown v lf (entry_fields e).
Proof.
  intros lf e v S V. exists (te_value e). split; [|split].
  - unfold value_given in V. unfold value_text. change COSMOS_KEY_APID with "application-process-identifier"%string in V.
    assert (AP : apid_value v = Ok (te_value e) -> exists z, te_value e = ("0x" ++ format_X 2 z)%string
      /\ (v = Some (VInt z) \/ (v = Some (VBool true) /\ z = 1%Z) \/ (v = Some (VBool false) /\ z = 0%Z))).
    { intros A. destruct v as [[z|f|[]|w]|]; unfold apid_value in A; try discriminate; apply (f_equal (fun r => match r with Ok x => x | _ => "" end)%string) in A;
        [exists z|exists 1%Z|exists 0%Z]; (split; [symmetry; exact A|auto]). }
    destruct (m_type (lf_member lf)); try exact V; (destruct (String.eqb (m_key (lf_member lf)) "application-process-identifier");
      [exact (AP V)|destruct v as [[z|f|b|w]|]; try exact V; exact I]).
  - cbn [fd_value entry_fields]. unfold cosmos_value. rewrite (sh_kind _ _ S). destruct (lf_kind lf); reflexivity.
  - cbn [fd_keyword fd_value entry_fields]. unfold id_or_array. rewrite (sh_array _ _ S). reflexivity.
Qed.

Section Accepted.
Variables (input : list module) (bun : bundle).
Hypothesis Hg : Forall (fun m => grammatical m = true) input.
Hypothesis Ha : accepted input bun.
Notation ms := (all_modules bun).

Lemma occur_members : forall i p a n j d k l os, members_occur ms i p a n j d k l os ->
  Forall (fun m => member_ok m = true) l -> Forall (fun o => member_ok (oc_member o) = true) os.
Proof.
  intros i p a n j d k l os H.
  induction H as [p a n j d k|p a n j d k m r u c w s os I H IH|p a n j d k m r x cm l j' d' os os' E V H1 IH1 H2 IH2]; intros F.
  - constructor.
  - inversion F; subst. constructor; auto.
  - inversion F; subst. constructor; [assumption|]. apply Forall_app. split; [|auto]. apply IH1. apply Forall_forall. intros y Hy.
    apply (accepted_member _ _ _ _ Hg Ha (visible_defs _ _ _ (defined_visible _ _ _ _ _ V)) Hy).
Qed.

Lemma messages_members : forall i m n msgs oss, nth_error ms i = Some m -> messages_occur ms i m n msgs oss ->
  Forall (Forall (fun o => member_ok (oc_member o) = true)) oss.
Proof.
  intros i m n msgs oss Hm H. induction H as [n|n x cm l d r os oss Ed H1 H2 IH]; [constructor|]. constructor; [|exact IH].
  eapply occur_members; [exact H1|]. apply Forall_forall. intros y Hy.
  apply (accepted_member _ _ (DSequence x cm l) _ Hg Ha); [|exact Hy]. apply in_flat_map. exists m.
  split; eapply nth_error_In; eassumption.
Qed.

Lemma show_texts : forall m target hs msgs oss ps, packets_show m hs msgs oss ps ->
  Forall (Forall (fun o => member_ok (oc_member o) = true)) oss ->
  Forall (fun p => Forall (fun e => ~ has_char LF (te_value e)) (pk_entries p)) ps ->
  texts_of_messages m target hs msgs oss (map (packet_text target) ps).
Proof.
  intros m target hs msgs oss ps H. induction H as [|n cm l r os oss p ps Hd En Ec F H IH]; intros O L; [constructor|].
  inversion O as [|? ? O1 O2]; subst. inversion L as [|? ? L1 L2]; subst. cbn [map]. constructor; [|apply IH; assumption].
  exists cm, l, (map entry_text (pk_entries p)). split; [exact Hd|]. split.
  - assert (O1' : Forall (fun o => member_ok (oc_member o) = true) (filter is_leaf os)).
    { rewrite Forall_forall in O1 |- *. intros o Ho. apply filter_In in Ho. apply O1. apply Ho. }
    clear - F O1' L1. revert F O1' L1. generalize (filter is_leaf os) (pk_entries p). intros xs ys F O1' L1. induction F as [|o e xs ys (lf & El & Em & S & V) F IH]; [constructor|].
    inversion O1'; subst. inversion L1; subst. cbn [map]. constructor; [|auto]. exists lf. split; [exact El|].
    apply entry_text_leaf; [exact S|rewrite Em; assumption|assumption|]. apply value_shown; assumption.
  - unfold packet_text, cosmos_telemetry. rewrite Ec. reflexivity.
Qed.

(** Occurrences are determined. *)
Lemma occur_unique : forall i p a n j d k l os os', members_occur ms i p a n j d k l os -> members_occur ms i p a n j d k l os' -> os = os'.
Proof.
  intros i p a n j d k l os os' H. revert os'.
  induction H as [p a n j d k|p a n j d k m r u c w s os I H IH|p a n j d k m r x cm l j' d' os os1 E V H1 IH1 H2 IH2]; intros os' H'.
  - inversion H'. reflexivity.
  - inversion H' as [|? ? ? ? ? ? ? ? u' c' w' s' os0 I' H0|? ? ? ? ? ? ? ? x' cm' l' j2 d2 oa ob E' V' Ha' Hb']; subst.
    + destruct (item_unique _ _ Ha _ _ _ _ _ _ _ _ _ _ I I') as (-> & -> & -> & ->). f_equal. apply IH. exact H0.
    + exfalso. eapply item_not_nested; [exact Ha|exact I|exact E'|eapply defined_visible; exact V'].
  - inversion H' as [|? ? ? ? ? ? ? ? u' c' w' s' os0 I' H0|? ? ? ? ? ? ? ? x' cm' l' j2 d2 oa ob E' V' Ha' Hb']; subst.
    + exfalso. eapply item_not_nested; [exact Ha|exact I'|exact E|eapply defined_visible; exact V].
    + assert (x' = x) by congruence. subst x'.
      destruct (nested_ref _ _ Ha _ _ _ _ (mkdref j2 d2 (DSequence x cm' l')) V V' eq_refl) as (A1 & A2 & A3). cbn in A1, A2, A3. subst j2 d2. injection A3 as -> ->.
      assert (oa = os) as -> by (symmetry; apply IH1; exact Ha'). f_equal. f_equal. apply IH2. exact Hb'.
Qed.

Lemma messages_unique : forall i m n msgs oss oss', nth_error ms i = Some m -> messages_occur ms i m n msgs oss -> messages_occur ms i m n msgs oss' -> oss = oss'.
Proof.
  intros i m n msgs oss oss' Hm H. revert oss'. induction H as [n|n x cm l d r os oss Ed H1 H2 IH]; intros oss' H'.
  - inversion H'. reflexivity.
  - inversion H' as [|? ? cm' l' d' ? os' oss0 Ed' H1' H2']; subst.
    destruct (nested_ref _ _ Ha _ _ _ _ (mkdref i d' (DSequence x cm' l')) (message_defined _ _ _ _ _ Hm Ed) (message_defined _ _ _ _ _ Hm Ed') eq_refl) as (_ & A2 & A3).
    cbn in A2, A3. subst d'. injection A3 as -> ->. assert (os' = os) as -> by (eapply occur_unique; eassumption). f_equal. apply IH. exact H2'.
Qed.
End Accepted.

Lemma run_history : forall fuel mn msgs target input fs fs', Forall (fun m => grammatical m = true) input ->
  run fuel (GenerateCosmos mn msgs target) input fs = (fs', Ok tt) ->
  exists ms ts, Forall2 same_module input ms
    /\ folder_get fs' (target ++ ".txt")
       = Some (match folder_get fs (target ++ ".txt") with Some old => old | None => "" end ++ text_of_run ts)%string
    /\ ((msgs = [] /\ ts = [] /\ ~ In mn (map mod_name ms))
        \/ exists i m oss hs, first_named ms i m /\ mod_name m = mn
           /\ messages_occur ms i m 0 msgs oss /\ handed_on (concat oss) hs
           /\ texts_of_messages m target hs msgs oss ts
           /\ forall oss' hs', messages_occur ms i m 0 msgs oss' -> handed_on (concat oss') hs' -> oss' = oss /\ hs' = hs).
Proof.
  intros fuel mn msgs target input fs fs' Hg H. destruct (cosmos_run_inv _ _ _ _ _ _ _ H) as (bun & ps & Hb & Hp & ->).
  assert (Ha : accepted input bun) by (right; exact Hb).
  exists (all_modules bun), (map (packet_text target) ps).
  split; [apply (accepted_same _ _ Ha)|].
  destruct (folder_append_get (target ++ ".txt", text_of_run (map (packet_text target) ps))%string fs) as (F1 & F2). cbn [fst snd] in F1, F2.
  split; [exact F1|].
  destruct (cosmos_packets_inv _ _ _ _ _ Hp) as [(-> & -> & N)|(i & m & Fm & Em & P)]; [left; auto|].
  right. assert (Hm := proj1 Fm).
  assert (NL := packets_no_LF _ _ Hg Ha _ _ _ _ _ Hm P).
  assert (S := packets_sound _ _ Hg Ha _ _ _ _ _ _ Hm P).
  destruct (messages_exist bun i m msgs Hm) with (n := 0%nat) as (oss & O).
  { intros x Hx. destruct (Forall2_in_l _ _ _ _ _ _ S Hx) as (p & _ & (cm & l & ls & Hd & _ & _ & PL & _)). eauto. }
  assert (OR := messages_ordered _ _ _ _ _ _ O). destruct (handed_exists _ OR) as (hs & HH).
  exists i, m, oss, hs. split; [exact Fm|]. split; [exact Em|]. split; [exact O|]. split; [exact HH|].
  destruct (packets_occur _ _ Hg Ha _ _ _ _ _ Hm O hs [] [] (concat oss)) with (4 := state_nil (all_modules bun) hs) (5 := P) as (_ & SH).
  { cbn [app]. rewrite app_nil_r. reflexivity. }
  { reflexivity. }
  { exact HH. }
  split; [apply show_texts; [exact SH|exact (messages_members _ _ Hg Ha _ _ _ _ _ Hm O)|exact NL]|].
  intros oss' hs' O' HH'. assert (E : oss' = oss) by (eapply messages_unique; eassumption). split; [exact E|].
  subst oss'. eapply handed_unique; eassumption.
Qed.

(** ** Modules as parsed and as read *)

Definition same_occurrence (a b : occurrence) : Prop :=
  oc_around b = oc_around a /\ oc_site b = oc_site a /\ oc_member b = oc_member a /\ is_leaf b = is_leaf a.

Lemma same_value : forall hs a b, same_occurrence a b -> value_of hs b = value_of hs a.
Proof. intros hs a b (A & B & C & _). unfold value_of. rewrite A, C. reflexivity. Qed.

Lemma same_clause : forall hs a b, same_occurrence a b -> clause_of hs b = clause_of hs a.
Proof. intros hs a b S. unfold clause_of. rewrite (same_value hs a b S). reflexivity. Qed.

Lemma same_handed : forall os os' hs, Forall2 same_occurrence os os' -> handed_on os hs -> handed_on os' hs.
Proof.
  intros os os' hs F (L & H). split; [rewrite L; eapply Forall2_length; exact F|]. intros n o' E'.
  assert (X : exists o, nth_error os n = Some o /\ same_occurrence o o').
  { clear - F E'. revert n E'. induction F as [|a b l l' S F IH]; intros [|n] E'; try discriminate; cbn [nth_error] in *; [injection E' as <-; eauto|auto]. }
  destruct X as (o & E & S). rewrite (H n o E). f_equal.
  assert (M : oc_member o' = oc_member o) by apply S. assert (T : oc_site o' = oc_site o) by apply S. rewrite M, T.
  destruct (m_with (oc_member o)) as [w|]; [|symmetry; apply same_clause; exact S]. f_equal.
  clear - F. generalize (S n) as k. revert n. 
  assert (G : forall k, flat_map (clause_of hs) (filter (fun x => site_eqb (oc_site x) (oc_site o)) (firstn k os))
    = flat_map (clause_of hs) (filter (fun x => site_eqb (oc_site x) (oc_site o)) (firstn k os'))); [|intros _ k; apply G].
  induction F as [|a b l l' S F IH]; intros [|k]; try reflexivity. cbn [firstn filter].
  assert (T : oc_site b = oc_site a) by apply S. rewrite T. destruct (site_eqb (oc_site a) (oc_site o)); [|apply IH].
  cbn [flat_map]. rewrite (same_clause hs a b S), IH. reflexivity.
Qed.

Lemma same_apids : forall hs os os', Forall2 same_occurrence os os' -> Forall (apid_known hs) os -> Forall (apid_known hs) os'.
Proof.
  intros hs os os' F. induction F as [|a b l l' S F IH]; intros H; [constructor|]. inversion H as [|? ? H1 H2]; subst. constructor; [|auto].
  unfold apid_known. rewrite (same_value hs a b S). destruct S as (_ & _ & M & L). rewrite M, L. exact H1.
Qed.

Definition as_defined (A B : list module) (i : nat) : Prop :=
  forall j d n cm l, defined_at A i j d (DSequence n cm l) -> defined_at B i j d (DSequence n cm l).

Lemma occur_move : forall A B i, as_visible A B i -> as_defined A B i -> forall p a n j d k l os, members_occur A i p a n j d k l os ->
  exists os', members_occur B i p a n j d k l os' /\ Forall2 same_occurrence os os'.
Proof.
  intros A B i V D p a n j d k l os H.
  induction H as [p a n j d k|p a n j d k m r u c w s os I H IH|p a n j d k m r x cm l j' d' os os1 E W H1 IH1 H2 IH2].
  - exists []. split; constructor.
  - destruct (item_moves _ _ _ _ _ _ _ _ V I) as (s' & I'). destruct IH as (os' & O & F). eexists. split; [eapply mo_leaf; eassumption|].
    constructor; [repeat split|exact F].
  - destruct IH1 as (o1 & O1 & F1). destruct IH2 as (o2 & O2 & F2). rewrite (Forall2_length _ _ _ _ _ F1) in O2.
    eexists. split; [eapply mo_nested; [exact E|apply D; exact W|exact O1|exact O2]|]. constructor; [repeat split|apply Forall2_app; assumption].
Qed.

Lemma messages_move : forall A B i a b, as_visible A B i -> as_defined A B i ->
  (forall d n cm l, nth_error (mod_defs a) d = Some (DSequence n cm l) -> nth_error (mod_defs b) d = Some (DSequence n cm l)) ->
  forall n msgs oss, messages_occur A i a n msgs oss ->
  exists oss', messages_occur B i b n msgs oss' /\ Forall2 same_occurrence (concat oss) (concat oss').
Proof.
  intros A B i a b V D N n msgs oss H. induction H as [n|n x cm l d r os oss Ed H1 H2 IH].
  - exists []. split; constructor.
  - destruct IH as (oss' & O & F). destruct (occur_move _ _ _ V D _ _ _ _ _ _ _ _ H1) as (os' & O1 & F1).
    rewrite (Forall2_length _ _ _ _ _ F1) in O. exists (os' :: oss'). split; [econstructor; [apply N; exact Ed|exact O1|exact O]|].
    cbn [concat]. apply Forall2_app; assumption.
Qed.

Lemma defs_nth_l : forall l l' d n cm k, Forall2 same_definition l l' -> nth_error l d = Some (DSequence n cm k) -> nth_error l' d = Some (DSequence n cm k).
Proof.
  intros l l' d n cm k F. revert d. induction F as [|x y l l' S F IH]; intros [|d] E; try discriminate; cbn [nth_error] in *; [|auto].
  injection E as ->. cbn in S. subst. reflexivity.
Qed.
Lemma defs_nth_r : forall l l' d n cm k, Forall2 same_definition l l' -> nth_error l' d = Some (DSequence n cm k) -> nth_error l d = Some (DSequence n cm k).
Proof.
  intros l l' d n cm k F. revert d. induction F as [|x y l l' S F IH]; intros [|d] E; try discriminate; cbn [nth_error] in *; [|auto].
  injection E as ->. destruct x; cbn in S; try (destruct S as (? & S & _)); congruence.
Qed.

Lemma as_defined_l : forall A B i, Forall2 same_module A B -> as_defined A B i.
Proof.
  intros A B i S j d n cm l (R & m & Hm & Hd). split; [exact (same_reaches _ _ (same_frame _ _ S) _ _ R)|].
  destruct (same_defs_nth _ _ S j m Hm) as (b & Eb & (_ & _ & _ & F)). exists b. split; [exact Eb|]. eapply defs_nth_l; eassumption.
Qed.
Lemma as_defined_r : forall A B i, Forall2 same_module A B -> as_defined B A i.
Proof.
  intros A B i S j d n cm l (R & m & Hm & Hd). split; [exact (same_reaches _ _ (same_flip _ _ (same_frame _ _ S)) _ _ R)|].
  destruct (same_defs_nth_r _ _ S j m Hm) as (b & Eb & (_ & _ & _ & F)). exists b. split; [exact Eb|]. eapply defs_nth_r; eassumption.
Qed.

(** ** When a run succeeds *)

Section Run.
Variables (mn : string) (msgs : list string) (target : string) (input : list module) (fs : folder).
Hypothesis Hg : Forall (fun m => grammatical m = true) input.

Lemma run_needs : forall fuel fs', run fuel (GenerateCosmos mn msgs target) input fs = (fs', Ok tt) ->
  cosmos_runs mn msgs input.
Proof.
  intros fuel fs' R. destruct (cosmos_run_inv _ _ _ _ _ _ _ R) as (bun & ps & Hb & Hp & _).
  assert (Ha : accepted input bun) by (right; exact Hb).
  destruct (proj1 (cosmos_accepted_any input Hg) (ex_intro _ bun Hb)) as (V1 & V2 & V3 & V4).
  constructor; try assumption.
  destruct (accepted_same _ _ Ha) as (S & _ & _).
  destruct (cosmos_packets_inv _ _ _ _ _ Hp) as [(-> & _)|(i & m & Fm & Em & P)]; [|assert (Hm := proj1 Fm)].
  { left. split; [reflexivity|]. intros ->. destruct (b_modules bun) eqn:E; unfold all_modules in S; rewrite E in S; inversion S.
    unfold cosmos_packets, get_module in Hp. rewrite E in Hp. discriminate. }
  right.
  destruct (same_defs_nth_r _ _ S i m Hm) as (a & Eai & Sa).
  assert (Ea : mod_name a = mn) by (destruct Sa as (X & _); congruence).
  assert (So := packets_sound _ _ Hg Ha _ _ _ _ _ _ Hm P).
  destruct (messages_exist bun i m msgs Hm) with (n := 0%nat) as (oss & O).
  { intros x Hx. destruct (Forall2_in_l _ _ _ _ _ _ So Hx) as (p & _ & (cm & l & ls & Hd & _ & _ & PL & _)). eauto. }
  destruct (handed_exists _ (messages_ordered _ _ _ _ _ _ O)) as (hs & HH).
  destruct (packets_occur _ _ Hg Ha _ _ _ _ _ Hm O hs [] [] (concat oss)) with (4 := state_nil (all_modules bun) hs) (5 := P) as (AP & _).
  { cbn [app]. rewrite app_nil_r. reflexivity. }
  { reflexivity. }
  { exact HH. }
  destruct (messages_move _ _ i m a (as_visible_r _ _ S i) (as_defined_r _ _ i S)) with (2 := O) as (oss' & O' & F).
  { intros d n cm l. destruct Sa as (_ & _ & _ & Fd). apply defs_nth_r. exact Fd. }
  exists i, a, oss', hs. split.
  { split; [exact Eai|]. intros k a' K Ek E. destruct (same_defs_nth _ _ S k a' Ek) as (b' & Eb & (X & _)).
    apply (proj2 Fm k b' K Eb). destruct Sa as (Y & _). congruence. }
  split; [exact Ea|]. split; [|split; [exact O'|split; [eapply same_handed; eassumption|eapply same_apids; eassumption]]].
  intros L. apply (same_looks_up msgs _ _ _ _ _ S Eai Hm) in L.
  apply (same_acyclic _ _ i (same_flip _ _ (same_frame _ _ S))). eapply packets_look_up; eassumption.
Qed.

Lemma run_suffices : cosmos_runs mn msgs input ->
  exists F, forall fuel, (F <= fuel)%nat -> exists fs', run fuel (GenerateCosmos mn msgs target) input fs = (fs', Ok tt).
Proof.
  intros [V1 V2 V3 V4 V5]. destruct (proj2 (cosmos_accepted_any input Hg) (conj V1 (conj V2 (conj V3 V4)))) as (bun & Hb).
  assert (Ha : accepted input bun) by (right; exact Hb). destruct (accepted_same _ _ Ha) as (S & _ & _).
  destruct V5 as [(-> & NE)|(i & a & oss & hs & Fa & Ea & AC & O & HH & AP)].
  - exists O. intros fuel _. cbn [run]. unfold with_bundle. rewrite Hb. unfold generate_cosmos, cosmos_packets, get_module.
    assert (NN : is_nil (b_modules bun) = false).
    { destruct (b_modules bun) eqn:E; [|reflexivity]. unfold all_modules in S. rewrite E in S. inversion S. congruence. }
    rewrite NN. cbn [bind]. destruct (find (fun bm => String.eqb (bm_name bm) mn) (b_modules bun)) as [bm|]; cbn [bind set_diff filter is_nil assert];
      (destruct (index_of mn 0 (b_modules bun)) as [i|]; cbn [packets bind]; eexists; reflexivity).
  - assert (Eai := proj1 Fa). destruct (same_defs_nth _ _ S i a Eai) as (m & Hm & Sm).
    assert (Em : mod_name m = mn) by (destruct Sm as (X & _); congruence).
    assert (First : forall j m', (j < i)%nat -> nth_error (all_modules bun) j = Some m' -> mod_name m' <> mod_name m).
    { intros j m' L Hj E. destruct (same_defs_nth_r _ _ S j m' Hj) as (a' & Ea' & (X & _)).
      apply (proj2 Fa j a' L Ea'). congruence. }
    destruct (messages_move _ _ i a m (as_visible_l _ _ S i) (as_defined_l _ _ i S)) with (2 := O) as (oss' & O' & F).
    { intros d n cm l. destruct Sm as (_ & _ & _ & Fd). apply defs_nth_l. exact Fd. }
    assert (ACm : looks_up m msgs -> acyclic_from (all_modules bun) i).
    { intros L. apply (same_looks_up msgs _ _ _ _ _ S Eai Hm) in L. apply (same_acyclic _ _ i (same_frame _ _ S)). auto. }
    destruct (packets_run _ _ Hg Ha _ _ _ _ _ Hm O' ACm) as (Fu & HF). exists Fu. intros fuel LF.
    assert (EC : concat oss' = [] ++ concat oss' ++ []) by (cbn [app]; rewrite app_nil_r; reflexivity).
    destruct (HF hs [] [] (concat oss') EC eq_refl (same_handed _ _ _ F HH) (same_apids _ _ _ F AP) fuel [] LF (state_nil (all_modules bun) hs)) as (ps & Ep).
    assert (Hm' := Hm). unfold all_modules in Hm'. rewrite nth_error_map in Hm'.
    destruct (nth_error (b_modules bun) i) as [bm|] eqn:Ebm; [|discriminate]. injection Hm' as Hm'.
    destruct (index_of_complete mn (b_modules bun) 0 i bm Ebm) as (IX & FD).
    { unfold bm_name. rewrite Hm'. exact Em. }
    { intros j bm' L Hj. unfold bm_name. rewrite <- Em. apply (First j); [exact L|]. unfold all_modules. apply map_nth_error. exact Hj. }
    assert (PK : cosmos_packets fuel bun mn msgs = Ok ps).
    { unfold cosmos_packets, get_module.
      assert (NN : is_nil (b_modules bun) = false) by (destruct (b_modules bun); [destruct i; discriminate|reflexivity]).
      rewrite NN. cbn [bind]. rewrite FD. cbn [bind].
      replace (is_nil (set_diff msgs (map def_name (mod_defs (bm_mod bm))))) with true.
      - cbn [assert bind]. rewrite IX. exact Ep.
      - symmetry. apply set_diff_nil. intros n Hin. rewrite Hm'. clear - O' Hin. induction O' as [n0|n0 x cm l d r os oss Ed H1 H2 IH]; [destruct Hin|].
        destruct Hin as [<-|Hin]; [|auto]. change x with (def_name (DSequence x cm l)). apply in_map. eapply nth_error_In. exact Ed. }
    eexists. cbn [run]. unfold with_bundle, generate_cosmos. rewrite Hb, PK. cbn [bind]. reflexivity.
Qed.
End Run.

Lemma cosmos_runs_iff : forall mn msgs target input fs, Forall (fun m => grammatical m = true) input ->
  (forall fuel fs', run fuel (GenerateCosmos mn msgs target) input fs = (fs', Ok tt) -> cosmos_runs mn msgs input)
  /\ (cosmos_runs mn msgs input -> exists F, forall fuel, (F <= fuel)%nat ->
        exists fs', run fuel (GenerateCosmos mn msgs target) input fs = (fs', Ok tt)).
Proof.
  intros mn msgs target input fs Hg. split; [intros fuel fs'; apply run_needs|apply run_suffices]; assumption.
Qed.

(** ** Later messages do not matter *)

Lemma packets_app : forall fuel b mi l l' st ps, packets fuel b mi (l ++ l') st = Ok ps ->
  exists ps1 ps2, ps = ps1 ++ ps2 /\ packets fuel b mi l st = Ok ps1.
Proof.
  intros fuel b mi l. induction l as [|n r IH]; intros l' st ps H; [exists [], ps; auto|]. cbn [app packets] in *.
  destruct (dict_get n _) as [d|]; [|discriminate]. destruct (items_of fuel b mi d [] st) as [[es st']|e|]; cbn [bind] in *; try discriminate.
  apply bind_ok in H. destruct H as (rest & Hr & H). injection H as <-. destruct (IH _ _ _ Hr) as (p1 & p2 & -> & E). rewrite E. cbn [bind].
  eexists. exists p2. split; [|reflexivity]. reflexivity.
Qed.

Lemma packets_length : forall fuel b mi l st ps, packets fuel b mi l st = Ok ps -> length ps = length l.
Proof.
  intros fuel b mi l. induction l as [|n r IH]; intros st ps H; cbn [packets] in H; [injection H as <-; reflexivity|].
  destruct (dict_get n _) as [d|]; [|discriminate]. destruct (items_of fuel b mi d [] st) as [[es st']|e|]; cbn [bind] in *; try discriminate.
  apply bind_ok in H. destruct H as (rest & Hr & H). injection H as <-. cbn [length]. f_equal. eapply IH. exact Hr.
Qed.

Lemma run_prefix : forall fuel mn msgs more target input fs fs',
  run fuel (GenerateCosmos mn (msgs ++ more) target) input fs = (fs', Ok tt) ->
  exists fs1 ts ts', run fuel (GenerateCosmos mn msgs target) input fs = (fs1, Ok tt)
    /\ length ts = length msgs
    /\ folder_get fs1 (target ++ ".txt")
       = Some (match folder_get fs (target ++ ".txt") with Some old => old | None => "" end ++ text_of_run ts)%string
    /\ folder_get fs' (target ++ ".txt")
       = Some (match folder_get fs (target ++ ".txt") with Some old => old | None => "" end ++ text_of_run (ts ++ ts'))%string.
Proof.
  intros fuel mn msgs more target input fs fs' H. destruct (cosmos_run_inv _ _ _ _ _ _ _ H) as (bun & ps & Hb & Hp & ->).
  assert (X : exists p1 p2, ps = p1 ++ p2 /\ cosmos_packets fuel bun mn msgs = Ok p1 /\ length p1 = length msgs).
  { unfold cosmos_packets in *. apply bind_ok in Hp. destruct Hp as (bm & Hbm & Hp). rewrite Hbm. cbn [bind].
    apply bind_ok in Hp. destruct Hp as (u & Hu & Hp). apply assert_ok' in Hu. apply set_diff_nil in Hu.
    match goal with |- context[assert (is_nil ?x) _] => assert (X : is_nil x = true) end.
    { apply set_diff_nil. intros x Hx. apply Hu. apply in_or_app. left. exact Hx. }
    rewrite X. cbn [assert bind]. destruct (index_of mn 0 (b_modules bun)) as [i|] eqn:E.
    - destruct (packets_app _ _ _ _ _ _ _ Hp) as (p1 & p2 & -> & P1). exists p1, p2. split; [reflexivity|]. split; [exact P1|].
      eapply packets_length. exact P1.
    - injection Hp as <-. exists [], []. split; [reflexivity|]. split; [reflexivity|].
      destruct msgs as [|x r]; [reflexivity|]. exfalso. unfold get_module in Hbm. destruct (is_nil (b_modules bun)); [discriminate|]. injection Hbm as <-.
      apply index_of_none in E. rewrite E in Hu. destruct (Hu x (or_introl eq_refl)). }
  destruct X as (p1 & p2 & -> & P1 & L1).
  exists (folder_append (target ++ ".txt", text_of_run (map (packet_text target) p1))%string fs), (map (packet_text target) p1), (map (packet_text target) p2).
  split; [|split; [rewrite map_length; exact L1|]].
  - cbn [run]. unfold with_bundle, generate_cosmos. rewrite Hb, P1. cbn [bind]. rewrite cosmos_text_run. reflexivity.
  - destruct (folder_append_get (target ++ ".txt", text_of_run (map (packet_text target) p1))%string fs) as (F1 & _). cbn [fst snd] in F1.
    destruct (folder_append_get (target ++ ".txt", text_of_run (map (packet_text target) (p1 ++ p2)))%string fs) as (F2 & _). cbn [fst snd] in F2.
    rewrite map_app in F2 at 2. auto.
Qed.
