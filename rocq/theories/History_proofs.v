(** * Proofs: the values of COSMOS items, whatever the clauses say *)
From Coq Require Import Lia List.
From Verif Require Import Base PyNum PyStr Ast Size Bundle GenCosmos Main Lib_proofs Spec_Enum Enum_proofs Spec_Grammar Spec_Num Spec_Check
  Spec_Bundle Check_proofs Bundle_proofs Accept_proofs Field_proofs Spec_Size Spec_Cosmos Cosmos_proofs Cosmos_text_proofs
  Spec_Cosmos_runs Cosmos_runs_proofs Spec_History.
Open Scope list_scope.

(** ** The components handed on exist and are determined *)

Definition before (n : nat) (o : occurrence) : Prop := forall a, oc_around o = Some a -> (a < n)%nat.
Definition ordered (n : nat) (os : list occurrence) : Prop :=
  forall k o, nth_error os k = Some o -> before (n + k) o.

Lemma value_local : forall hs hs' o, before (length hs) o -> value_of (hs ++ hs') o = value_of hs o.
Proof.
  intros hs hs' o B. unfold value_of. destruct (oc_around o) as [a|] eqn:E; [|reflexivity]. rewrite app_nth1; [reflexivity|]. exact (B a E).
Qed.

Lemma clause_local : forall hs hs' o, before (length hs) o -> clause_of (hs ++ hs') o = clause_of hs o.
Proof. intros. unfold clause_of. rewrite value_local; auto. Qed.

Lemma flat_map_ext_in : forall A B (f g : A -> list B) l, (forall x, In x l -> f x = g x) -> flat_map f l = flat_map g l.
Proof. intros A B f g l H. induction l as [|x l IH]; [reflexivity|]. cbn [flat_map]. rewrite H by (left; reflexivity). rewrite IH; [reflexivity|]. intros; apply H; right; assumption. Qed.

Lemma before_le : forall n n' o, (n <= n')%nat -> before n o -> before n' o.
Proof. intros n n' o L B a E. specialize (B a E). lia. Qed.

Lemma ordered_in : forall n os o, ordered n os -> In o os -> before (n + length os) o.
Proof.
  intros n os o H Ho. apply In_nth_error in Ho. destruct Ho as (k & Ek). eapply before_le; [|exact (H k o Ek)].
  assert (k < length os)%nat by (apply nth_error_Some; congruence). lia.
Qed.

Definition rule (os : list occurrence) (hs : list (list witem)) (n : nat) (o : occurrence) : list witem :=
  match m_with (oc_member o) with
  | None => clause_of hs o
  | Some w => wc_items w ++ flat_map (clause_of hs) (filter (fun o' => site_eqb (oc_site o') (oc_site o)) (firstn (S n) os))
  end.

(** Only what was handed on before counts. *)
Lemma rule_local : forall os hs hs' n o, ordered 0 os -> nth_error os n = Some o -> (n <= length hs)%nat ->
  rule os (hs ++ hs') n o = rule os hs n o.
Proof.
  intros os hs hs' n o H E L. unfold rule. destruct (m_with (oc_member o)) as [w|].
  - f_equal. apply flat_map_ext_in. intros x Hx. apply filter_In in Hx. destruct Hx as (Hx & _).
    apply clause_local. apply In_nth_error in Hx. destruct Hx as (k & Ek).
    assert (Lk : (k < S n)%nat).
    { assert (K : (k < length (firstn (S n) os))%nat) by (apply nth_error_Some; congruence). rewrite firstn_length in K. lia. }
    assert (X : nth_error os k = Some x).
    { rewrite <- (firstn_skipn (S n) os). rewrite nth_error_app1; [exact Ek|]. apply nth_error_Some. congruence. }
    eapply before_le; [|exact (H k x X)]. lia.
  - apply clause_local. eapply before_le; [|exact (H n o E)]. exact L.
Qed.

Lemma rule_prefix : forall os os' hs n o, nth_error os n = Some o -> rule (os ++ os') hs n o = rule os hs n o.
Proof.
  intros os os' hs n o E. unfold rule. rewrite firstn_app.
  assert (n < length os)%nat by (apply nth_error_Some; congruence).
  replace (S n - length os)%nat with 0%nat by lia. cbn [firstn]. rewrite app_nil_r. reflexivity.
Qed.

Lemma ordered_app : forall os os', ordered 0 (os ++ os') -> ordered 0 os.
Proof. intros os os' H k o E. apply H. rewrite nth_error_app1; [exact E|]. apply nth_error_Some. congruence. Qed.

Lemma handed_exists : forall os, ordered 0 os -> exists hs, handed_on os hs.
Proof.
  intros os. induction os as [|o os IH] using rev_ind; intros H.
  - exists []. split; [reflexivity|]. intros [|n] o E; discriminate.
  - assert (H0 := ordered_app _ _ H). destruct (IH H0) as (hs & L & Hs).
    exists (hs ++ [rule (os ++ [o]) hs (length os) o]). split; [rewrite !app_length, L; reflexivity|].
    intros n x E. change (nth_error (hs ++ [rule (os ++ [o]) hs (length os) o]) n = Some (rule (os ++ [o]) (hs ++ [rule (os ++ [o]) hs (length os) o]) n x)).
    assert (N : (n < length (os ++ [o]))%nat) by (apply nth_error_Some; congruence). rewrite app_length in N. cbn [length] in N.
    rewrite rule_local; [|exact H|exact E|rewrite L; lia].
    destruct (Nat.eq_dec n (length os)) as [->|D].
    + rewrite nth_error_app2 in E by lia. rewrite Nat.sub_diag in E. injection E as <-.
      rewrite nth_error_app2 by lia. rewrite L, Nat.sub_diag. reflexivity.
    + rewrite nth_error_app1 in E by lia. rewrite nth_error_app1 by lia. rewrite rule_prefix by exact E. apply (Hs n x E).
Qed.

Lemma handed_nth : forall os hs n o, handed_on os hs -> nth_error os n = Some o -> nth n hs [] = rule os hs n o.
Proof. intros os hs n o (_ & H) E. apply nth_error_nth. exact (H n o E). Qed.

Lemma handed_unique : forall os hs hs', ordered 0 os -> handed_on os hs -> handed_on os hs' -> hs = hs'.
Proof.
  intros os hs hs' O (L & H) (L' & H').
  assert (X : forall n, (n <= length os)%nat -> firstn n hs = firstn n hs').
  { induction n as [|n IH]; intros Ln; [reflexivity|]. assert (IHn := IH ltac:(lia)).
    destruct (nth_error os n) as [o|] eqn:E; [|apply nth_error_None in E; lia].
    assert (A := H n o E). assert (B := H' n o E).
    assert (R : forall h, length h = length os -> nth_error h n = Some (rule os h n o) -> firstn (S n) h = firstn n h ++ [rule os (firstn n h) n o]).
    { intros h Lh Eh. assert (Q : rule os h n o = rule os (firstn n h) n o).
      { rewrite <- (firstn_skipn n h) at 1. apply rule_local; [exact O|exact E|]. rewrite firstn_length. lia. }
      rewrite Q in Eh. clear - Eh. revert Eh. generalize (rule os (firstn n h) n o). intros x. revert n.
      induction h as [|y h IHh]; intros [|n] Eh; try discriminate; cbn [nth_error] in Eh.
      - injection Eh as ->. reflexivity.
      - cbn [firstn app]. f_equal. exact (IHh n Eh). }
    rewrite (R hs L A), (R hs' L' B), IHn. reflexivity. }
  specialize (X (length os) ltac:(lia)). rewrite !firstn_all2 in X by lia. exact X.
Qed.

(** Occurrences come after the one around them. *)
Lemma members_ordered : forall ms i p a n j d k l os, members_occur ms i p a n j d k l os ->
  (forall x, a = Some x -> (x < n)%nat) -> ordered n os.
Proof.
  intros ms i p a n j d k l os H.
  induction H as [p a n j d k|p a n j d k m r u c w s os I H IH|p a n j d k m r x cm l j' d' os os' E V H1 IH1 H2 IH2]; intros A.
  - intros [|q] o Eq; discriminate.
  - assert (IH' := IH ltac:(intros x Ex; specialize (A x Ex); lia)). intros [|q] o Eq; cbn [nth_error] in Eq.
    + injection Eq as <-. intros x Ex. cbn in Ex. specialize (A x Ex). lia.
    + eapply before_le; [|exact (IH' q o Eq)]. lia.
  - assert (IH1' := IH1 ltac:(intros y Ey; injection Ey as <-; lia)). assert (IH2' := IH2 ltac:(intros y Ey; specialize (A y Ey); lia)).
    intros [|q] o Eq; cbn [nth_error] in Eq.
    + injection Eq as <-. intros y Ey. cbn in Ey. specialize (A y Ey). lia.
    + destruct (Nat.lt_ge_cases q (length os)) as [Lq|Lq].
      * rewrite nth_error_app1 in Eq by exact Lq. eapply before_le; [|exact (IH1' q o Eq)]. lia.
      * rewrite nth_error_app2 in Eq by exact Lq. eapply before_le; [|exact (IH2' _ o Eq)]. lia.
Qed.

Lemma messages_ordered : forall ms i m n msgs oss, messages_occur ms i m n msgs oss -> ordered n (concat oss).
Proof.
  intros ms i m n msgs oss H. induction H as [n|n x cm l d r os oss E H1 H2 IH]; cbn [concat].
  - intros [|q] o Eq; discriminate.
  - assert (H1' := members_ordered _ _ _ _ _ _ _ _ _ _ H1 ltac:(discriminate)). intros q o Eq.
    destruct (Nat.lt_ge_cases q (length os)) as [Lq|Lq].
    + rewrite nth_error_app1 in Eq by exact Lq. exact (H1' q o Eq).
    + rewrite nth_error_app2 in Eq by exact Lq. eapply before_le; [|exact (IH _ o Eq)]. lia.
Qed.

(** ** The state of the generator *)

Definition member_at (ms : list module) (s : site) (m : member) : Prop :=
  let '(j, d, k) := s in
  exists md n c l, nth_error ms j = Some md /\ nth_error (mod_defs md) d = Some (DSequence n c l) /\ nth_error l k = Some m.

Lemma member_at_unique : forall ms s m m', member_at ms s m -> member_at ms s m' -> m = m'.
Proof.
  intros ms [[j d] k] m m' (md & n & c & l & E1 & E2 & E3) (md' & n' & c' & l' & E1' & E2' & E3').
  assert (md' = md) by congruence. subst. assert (X : DSequence n c l = DSequence n' c' l') by congruence. injection X as -> -> ->. congruence.
Qed.

(** The lists of the clauses are as they were, with what was given so far. *)
Definition state_is (ms : list module) (hs : list (list witem)) (pre : list occurrence) (st : cstate) : Prop :=
  forall j d k m w, member_at ms (j, d, k) m -> m_with m = Some w ->
  match state_get st j d k with Some l => l | None => wc_items w end
  = wc_items w ++ flat_map (clause_of hs) (filter (fun o => site_eqb (oc_site o) (j, d, k)) pre).

Lemma state_nil : forall ms hs, state_is ms hs [] [].
Proof. intros ms hs j d k m w _ _. cbn. rewrite app_nil_r. reflexivity. Qed.

Lemma site_eqb_eq : forall a b, site_eqb a b = true <-> a = b.
Proof.
  intros [[j d] k] [[j' d'] k']. unfold site_eqb. rewrite !Bool.andb_true_iff, !Nat.eqb_eq. split; [intros ((-> & ->) & ->); reflexivity|].
  intros E. injection E as -> -> ->. auto.
Qed.

Lemma given_only : forall wc k, given_value wc k = only (values_for k wc).
Proof.
  intros wc k. unfold given_value, values_for. destruct (filter (fun c => String.eqb (wi_key c) k) wc) as [|x [|y l]]; reflexivity.
Qed.

Definition handed_in (hs : list (list witem)) (a : option nat) : list witem :=
  match a with Some x => nth x hs [] | None => [] end.

Lemma value_given_value : forall hs o, given_value (handed_in hs (oc_around o)) (m_key (oc_member o)) = value_of hs o.
Proof. intros hs o. rewrite given_only. unfold value_of, handed_in. destruct (oc_around o); reflexivity. Qed.

Lemma step : forall ms all hs pre o post st j d k down st1, all = pre ++ o :: post -> handed_on all hs ->
  oc_site o = (j, d, k) -> member_at ms (j, d, k) (oc_member o) -> state_is ms hs pre st ->
  hand_down st j d k (oc_member o) (value_of hs o) = (down, st1) ->
  down = nth (length pre) hs [] /\ state_is ms hs (pre ++ [o]) st1.
Proof.
  intros ms all hs pre o post st j d k down st1 -> H Es Hm Hst E.
  assert (N : nth_error (pre ++ o :: post) (length pre) = Some o) by (rewrite nth_error_app2, Nat.sub_diag by lia; reflexivity).
  rewrite (handed_nth _ _ _ _ H N). unfold rule.
  replace (firstn (S (length pre)) (pre ++ o :: post)) with (pre ++ [o])
    by (rewrite firstn_app, firstn_all2 by lia; f_equal; replace (S (length pre) - length pre)%nat with 1%nat by lia; reflexivity).
  assert (SN : forall (f : occurrence -> bool), flat_map (clause_of hs) (filter f (pre ++ [o]))
    = flat_map (clause_of hs) (filter f pre) ++ (if f o then clause_of hs o else [])).
  { intros f. rewrite filter_app, flat_map_app. f_equal. cbn [filter]. destruct (f o); cbn [flat_map]; [apply app_nil_r|reflexivity]. }
  unfold hand_down, own_components in E. rewrite Es, SN. fold (m_with (oc_member o)).
  assert (SR : site_eqb (oc_site o) (j, d, k) = true) by (apply site_eqb_eq; exact Es). rewrite SR.
  destruct (m_with (oc_member o)) as [w|] eqn:Ew.
  - assert (S0 := Hst j d k _ w Hm Ew).
    set (cur := match state_get st j d k with Some l => l | None => wc_items w end) in *.
    assert (E' : (match (match value_of hs o with Some (VWith w0) => Some (wc_items w0) | _ => None end) with
                  | Some i => (cur ++ i, state_set st j d k (cur ++ i)) | None => (cur, st) end) = (down, st1)).
    { unfold cur. destruct (state_get st j d k); exact E. }
    clear E. rewrite app_assoc, <- S0. unfold clause_of at 1.
    destruct (value_of hs o) as [[z|f|b|w0]|] eqn:Ev; injection E' as <- <-; rewrite ?app_nil_r.
    1,2,3,5: split; [reflexivity|]; intros j' d' k' m' w' Hm' Ew'; rewrite SN; unfold clause_of at 2; rewrite Ev;
      destruct (site_eqb (oc_site o) (j', d', k')); rewrite app_nil_r; apply (Hst _ _ _ m'); assumption.
    split; [reflexivity|]. intros j' d' k' m' w' Hm' Ew'. rewrite SN. cbn [state_get state_set].
    assert (C0 : clause_of hs o = wc_items w0) by (unfold clause_of; rewrite Ev; reflexivity).
    destruct (site_eqb (oc_site o) (j', d', k')) eqn:Es'.
    + apply site_eqb_eq in Es'. rewrite Es in Es'. injection Es' as <- <- <-. rewrite !Nat.eqb_refl. cbn [andb].
      assert (m' = oc_member o) as -> by (eapply member_at_unique; eassumption). assert (w' = w) as -> by congruence.
      rewrite S0, C0, app_assoc. reflexivity.
    + rewrite Es in Es'. cbn [site_eqb] in Es'. rewrite Es'. rewrite app_nil_r. apply (Hst _ _ _ m'); assumption.
  - assert (st1 = st /\ down = clause_of hs o) as (-> & ->).
    { unfold clause_of. destruct (value_of hs o) as [[z|f|b|w0]|]; injection E as <- <-; auto. }
    split; [reflexivity|]. intros j' d' k' m' w' Hm' Ew'. rewrite SN.
    destruct (site_eqb (oc_site o) (j', d', k')) eqn:Es'; [|rewrite app_nil_r; apply (Hst _ _ _ m'); assumption].
    apply site_eqb_eq in Es'. rewrite Es in Es'. injection Es' as <- <- <-.
    assert (m' = oc_member o) as -> by (eapply member_at_unique; eassumption). congruence.
Qed.

(** ** Occurrences and leaves *)

Definition leaves_of (os : list occurrence) : list leaf :=
  flat_map (fun o => match oc_leaf o with Some lf => [lf] | None => [] end) os.

Lemma defined_visible : forall ms i j d df, defined_at ms i j d df -> visible ms i df.
Proof. intros ms i j d df (R & m & Hm & H). exists j, m. split; [exact R|]. split; [exact Hm|]. eapply nth_error_In. exact H. Qed.

Lemma visible_defined : forall ms i df, visible ms i df -> exists j d, defined_at ms i j d df.
Proof.
  intros ms i df (j & m & R & Hm & H). apply In_nth_error in H. destruct H as (d & H). exists j, d. split; [exact R|]. exists m. auto.
Qed.

Lemma occur_leaves : forall ms i p a n j d k l os, members_occur ms i p a n j d k l os -> packet_leaves ms i p l (leaves_of os).
Proof.
  intros ms i p a n j d k l os H.
  induction H as [p a n j d k|p a n j d k m r u c w s os I H IH|p a n j d k m r x cm l j' d' os os' E V H1 IH1 H2 IH2].
  - constructor.
  - cbn [leaves_of flat_map oc_leaf app]. apply pl_leaf; assumption.
  - unfold leaves_of. cbn [flat_map oc_leaf app]. rewrite flat_map_app. eapply pl_nested; try eassumption. eapply defined_visible. exact V.
Qed.

Lemma leaves_occur : forall ms i p l ls, packet_leaves ms i p l ls -> forall a n j d k,
  exists os, members_occur ms i p a n j d k l os /\ leaves_of os = ls.
Proof.
  intros ms i p l ls H. induction H as [p|p m r u c w s ls I H IH|p m n cm l r ls ls' E V H1 IH1 H2 IH2]; intros a q j d k.
  - exists []. split; [constructor|reflexivity].
  - destruct (IH a (S q) j d (S k)) as (os & O & <-). eexists. split; [eapply mo_leaf; eassumption|reflexivity].
  - destruct (visible_defined _ _ _ V) as (j' & d' & V'). destruct (IH1 (Some q) (S q) j' d' 0%nat) as (os & O & <-).
    destruct (IH2 a (S q + length os)%nat j d (S k)) as (os' & O' & <-). eexists. split; [eapply mo_nested; eassumption|].
    unfold leaves_of. cbn [flat_map oc_leaf app]. apply flat_map_app.
Qed.

(** What an item says about an occurrence. *)
Definition shows_occurrence (hs : list (list witem)) (o : occurrence) (e : entry) : Prop :=
  exists lf, oc_leaf o = Some lf /\ lf_member lf = oc_member o /\ shows lf e
    /\ value_given (lf_member lf) (lf_bits lf) (value_of hs o) e.

Section Accepted.
Variables (input : list module) (bun : bundle).
Hypothesis Hg : Forall (fun m => grammatical m = true) input.
Hypothesis Ha : accepted input bun.
Notation ms := (all_modules bun).

Lemma nested_ref : forall i j d df r, defined_at ms i j d df -> visible_ref ms i r -> def_name (dr_def r) = def_name df ->
  dr_mod r = j /\ dr_pos r = d /\ dr_def r = df.
Proof.
  intros i j d df r (R & m & Hm & H) V E.
  assert (X : r = mkdref j d df).
  { apply (unique_position ms (acc_unique _ _ Ha) i); [exact V| |exact E]. split; [exact R|]. exists m. auto. }
  rewrite X. auto.
Qed.

Lemma defined_member : forall i j d n c l m k, defined_at ms i j d (DSequence n c l) -> nth_error l k = Some m -> member_at ms (j, d, k) m.
Proof. intros i j d n c l m k (_ & md & E1 & E2) E3. exists md, n, c, l. auto. Qed.

Lemma leaf_apid : forall m given states c bg en e, leaf_entry m given states c bg en = Ok e ->
  apid_ok m \/ (exists z, given = Some (VInt z)) \/ (exists b, given = Some (VBool b)).
Proof.
  intros m given states c bg en e H. destruct (leaf_entry_inv _ _ _ _ _ _ _ H) as (c' & w & r & _ & _ & _ & V & _).
  unfold value_given in V. unfold apid_ok. destruct (m_type m); try (left; left; reflexivity);
    (destruct (String.eqb_spec (m_key m) COSMOS_KEY_APID) as [Ek|Ek]; [|left; right; exact Ek];
     destruct given as [[z|f|b|w0]|]; try discriminate; eauto).
Qed.

(** ** Soundness *)

Lemma walk_sound : forall i p a n j d k l os, members_occur ms i p a n j d k l os ->
  forall x c L, defined_at ms i j d (DSequence x c L) -> skipn k L = l ->
  forall hs pre post all, all = pre ++ os ++ post -> length pre = n -> handed_on all hs ->
  forall fuel st es st', state_is ms hs pre st ->
  go_members (items_of fuel bun i) fuel bun i j d (handed_in hs a) k l st = Ok (es, st') ->
  Forall (apid_known hs) os /\ Forall2 (shows_occurrence hs) (filter is_leaf os) es /\ state_is ms hs (pre ++ os) st'.
Proof.
  intros i p a n j d k l os H.
  induction H as [p a n j d k|p a n j d k m r u c w s os I H IH|p a n j d k m r y cm l j' d' os os' E V H1 IH1 H2 IH2];
    intros x0 c0 L D SK hs pre post all Eall Ln HH fuel st es st' Hst R.
  - cbn [go_members] in R. injection R as <- <-. rewrite app_nil_r. repeat split; try constructor. exact Hst.
  - assert (NM : nth_error L k = Some m) by (rewrite <- (firstn_skipn k L), SK, nth_error_app2; rewrite firstn_length;
      assert (k < length L)%nat by (destruct (Nat.lt_ge_cases k (length L)) as [G|G]; [exact G|rewrite skipn_all2 in SK by exact G; discriminate]);
      [replace (k - Nat.min k (length L))%nat with 0%nat by lia; reflexivity|lia]).
    assert (SK' : skipn (S k) L = r).
    { clear - SK. revert L SK. induction k as [|k IHk]; intros [|z L] SK; try discriminate; [injection SK as _ <-; reflexivity|apply IHk; exact SK]. }
    assert (Hm : In m (members_of (DSequence x0 c0 L))) by (eapply nth_error_In; exact NM).
    assert (Hdd := visible_defs _ _ _ (defined_visible _ _ _ _ _ D)).
    set (o := mkocc a (j, d, k) m (Some (mkleaf p m u c w s))) in *.
    assert (GV : given_value (handed_in hs a) (m_key m) = value_of hs o) by exact (value_given_value hs o).
    cbn [go_members] in R. rewrite GV in R.
    destruct (hand_down st j d k m (value_of hs o)) as [down st1] eqn:HD.
    destruct (step ms all hs pre o (os ++ post) st j d k down st1 Eall HH eq_refl (defined_member _ _ _ _ _ _ _ _ D NM) Hst HD) as (_ & Hst1).
    destruct (accepted_member _ _ _ _ Hg Ha Hdd Hm) as (_ & Hok & Hra & Hn).
    apply bind_ok in R. destruct R as (info & Hi & R). apply bind_ok in R. destruct R as ((es1 & st2) & R1 & R).
    apply bind_ok in R. destruct R as ((es2 & st3) & R2 & R). injection R as <- <-.
    destruct info as [r'|states c' bg en].
    { exfalso. destruct (member_info_nested _ _ Hg Ha _ _ _ _ _ Hdd Hm Hi) as (Ee & Vr).
      destruct fuel as [|fuel]; [discriminate|]. destruct (dr_def r') as [n1 c1 l1|n1 c1 l1|n1 c1 l1|n1 t1 c1] eqn:Er;
        try (cbn [items_of] in R1; rewrite Er in R1; discriminate).
      assert (Vv := visible_ref_visible _ _ _ Vr). rewrite Er in Vv. cbn [def_name] in Ee.
      eapply item_not_nested; eassumption. }
    apply bind_ok in R1. destruct R1 as (e & He & R1). injection R1 as <- <-. cbn [oc_member o] in He.
    destruct (leaf_entry_inv _ _ _ _ _ _ _ He) as (c2 & w2 & x2 & Ec & Ew & Er & Vg & Sh).
    destruct (member_info_leaf _ _ Hg Ha _ _ _ _ _ _ _ _ Hdd Hm Hi _ _ _ Ec Ew Er) as (u2 & It & Li).
    destruct (item_unique _ _ Ha _ _ _ _ _ _ _ _ _ _ I It) as (-> & -> & -> & ->).
    destruct (IH x0 c0 L D SK' hs (pre ++ [o]) post all) with (4 := Hst1) (5 := R2) as (A1 & A2 & A3).
    + rewrite Eall, <- app_assoc. reflexivity.
    + rewrite app_length. cbn [length]. lia.
    + exact HH.
    + split; [|split].
      * constructor; [|exact A1]. intros _. exact (leaf_apid _ _ _ _ _ _ _ He).
      * cbn [filter is_leaf oc_leaf o]. constructor; [|exact A2]. exists (mkleaf p m u2 c2 w2 states).
        split; [reflexivity|]. split; [reflexivity|]. split; [apply Sh; exact Li|exact Vg].
      * rewrite <- app_assoc in A3. exact A3.
  - assert (NM : nth_error L k = Some m) by (rewrite <- (firstn_skipn k L), SK, nth_error_app2; rewrite firstn_length;
      assert (k < length L)%nat by (destruct (Nat.lt_ge_cases k (length L)) as [G|G]; [exact G|rewrite skipn_all2 in SK by exact G; discriminate]);
      [replace (k - Nat.min k (length L))%nat with 0%nat by lia; reflexivity|lia]).
    assert (SK' : skipn (S k) L = r).
    { clear - SK. revert L SK. induction k as [|k IHk]; intros [|z L] SK; try discriminate; [injection SK as _ <-; reflexivity|apply IHk; exact SK]. }
    assert (Hm : In m (members_of (DSequence x0 c0 L))) by (eapply nth_error_In; exact NM).
    assert (Hdd := visible_defs _ _ _ (defined_visible _ _ _ _ _ D)).
    set (o := mkocc a (j, d, k) m None) in *.
    assert (GV : given_value (handed_in hs a) (m_key m) = value_of hs o) by exact (value_given_value hs o).
    cbn [go_members] in R. rewrite GV in R.
    destruct (hand_down st j d k m (value_of hs o)) as [down st1] eqn:HD.
    destruct (step ms all hs pre o ((os ++ os') ++ post) st j d k down st1 Eall HH eq_refl (defined_member _ _ _ _ _ _ _ _ D NM) Hst HD) as (Ed & Hst1).
    destruct (accepted_member _ _ _ _ Hg Ha Hdd Hm) as (_ & Hok & Hra & Hn).
    apply bind_ok in R. destruct R as (info & Hi & R). apply bind_ok in R. destruct R as ((es1 & st2) & R1 & R).
    apply bind_ok in R. destruct R as ((es2 & st3) & R2 & R). injection R as <- <-.
    destruct info as [r'|states c' bg en].
    2:{ exfalso. apply bind_ok in R1. destruct R1 as (e & He & R1).
        destruct (leaf_entry_inv _ _ _ _ _ _ _ He) as (c2 & w2 & x2 & Ec & Ew & Er & Vg & Sh).
        destruct (member_info_leaf _ _ Hg Ha _ _ _ _ _ _ _ _ Hdd Hm Hi _ _ _ Ec Ew Er) as (u2 & It & Li).
        eapply item_not_nested; [exact Ha|exact It|exact E|eapply defined_visible; exact V]. }
    destruct (member_info_nested _ _ Hg Ha _ _ _ _ _ Hdd Hm Hi) as (Ee & Vr).
    destruct (nested_ref _ _ _ _ _ V Vr) as (Ej & Edd & Er); [cbn [def_name]; congruence|].
    destruct fuel as [|fuel]; [discriminate|]. rewrite (items_of_sequence _ _ _ _ _ _ _ _ _ Er), Ej, Edd in R1.
    assert (Hin : down = handed_in hs (Some n)) by (rewrite Ed, <- Ln; reflexivity). rewrite Hin in R1.
    destruct (IH1 _ _ _ V eq_refl hs (pre ++ [o]) (os' ++ post) all) with (4 := Hst1) (5 := R1) as (A1 & A2 & A3).
    { rewrite Eall. cbn [app]. repeat rewrite <- app_assoc. cbn [app]. repeat rewrite <- app_assoc. reflexivity. }
    { rewrite app_length. cbn [length]. lia. }
    { exact HH. }
    destruct (IH2 x0 c0 L D SK' hs ((pre ++ [o]) ++ os) post all) with (4 := A3) (5 := R2) as (B1 & B2 & B3).
    { rewrite Eall. cbn [app]. repeat rewrite <- app_assoc. cbn [app]. repeat rewrite <- app_assoc. reflexivity. }
    { rewrite !app_length. cbn [length]. lia. }
    { exact HH. }
    split; [|split].
    + constructor; [discriminate|]. apply Forall_app. auto.
    + cbn [filter is_leaf oc_leaf o]. rewrite filter_app. apply Forall2_app; assumption.
    + repeat rewrite <- app_assoc in B3. cbn [app] in B3. exact B3.
Qed.

(** ** Completeness *)

Lemma walk_complete : forall i p a n j d k l os, members_occur ms i p a n j d k l os ->
  (forall m n, In m l -> element (m_type m) = TName n -> acyclic_from ms i) ->
  forall x c L, defined_at ms i j d (DSequence x c L) -> skipn k L = l ->
  exists F, forall hs pre post all, all = pre ++ os ++ post -> length pre = n -> handed_on all hs -> Forall (apid_known hs) os ->
  forall fuel st, (F <= fuel)%nat -> state_is ms hs pre st ->
  exists es st', go_members (items_of fuel bun i) fuel bun i j d (handed_in hs a) k l st = Ok (es, st').
Proof.
  intros i p a n j d k l os H.
  induction H as [p a n j d k|p a n j d k m r u c w s os I H IH|p a n j d k m r y cm l j' d' os os' E V H1 IH1 H2 IH2];
    intros AC x0 c0 L D SK.
  - exists 0%nat. intros. eexists. eexists. reflexivity.
  - assert (NM : nth_error L k = Some m) by (rewrite <- (firstn_skipn k L), SK, nth_error_app2; rewrite firstn_length;
      assert (k < length L)%nat by (destruct (Nat.lt_ge_cases k (length L)) as [G|G]; [exact G|rewrite skipn_all2 in SK by exact G; discriminate]);
      [replace (k - Nat.min k (length L))%nat with 0%nat by lia; reflexivity|lia]).
    assert (SK' : skipn (S k) L = r).
    { clear - SK. revert L SK. induction k as [|k IHk]; intros [|z L] SK; try discriminate; [injection SK as _ <-; reflexivity|apply IHk; exact SK]. }
    assert (Hm : In m (members_of (DSequence x0 c0 L))) by (eapply nth_error_In; exact NM).
    assert (Hdd := visible_defs _ _ _ (defined_visible _ _ _ _ _ D)).
    destruct (IH (fun z t Hz => AC z t (or_intror Hz)) x0 c0 L D SK') as (F & HF).
    exists (Nat.max (S (length ms)) F). intros hs pre post all Eall Ln HH Ap fuel st LF Hst.
    inversion Ap as [|? ? A1 A2]; subst x l.
    set (o := mkocc a (j, d, k) m (Some (mkleaf p m u c w s))) in *.
    assert (GV : given_value (handed_in hs a) (m_key m) = value_of hs o) by exact (value_given_value hs o).
    cbn [go_members]. rewrite GV.
    destruct (hand_down st j d k m (value_of hs o)) as [down st1] eqn:HD.
    destruct (step ms all hs pre o (os ++ post) st j d k down st1 Eall HH eq_refl (defined_member _ _ _ _ _ _ _ _ D NM) Hst HD) as (_ & Hst1).
    destruct (accepted_member _ _ _ _ Hg Ha Hdd Hm) as (_ & Hok & Hra & Hn).
    destruct (item_type_info _ _ Hg Ha i (m_type m) (fun z => AC m z (or_introl eq_refl)) fuel _ _ _ _ ltac:(lia) Hok Hra Hn I) as (bg & en & x & Em & Ew & Er).
    rewrite Em. cbn [bind].
    destruct (leaf_entry_fixed m (value_of hs o) s c w bg en x Ew Er (A1 eq_refl)) as (e & Ee). rewrite Ee. cbn [bind].
    destruct (HF hs (pre ++ [o]) post all) with (5 := Nat.le_trans _ _ _ (Nat.le_max_r _ _) LF) (6 := Hst1) as (es & st2 & E2).
    { rewrite Eall, <- app_assoc. reflexivity. }
    { rewrite app_length. cbn [length]. lia. }
    { exact HH. }
    { exact A2. }
    rewrite E2. cbn [bind]. eexists. eexists. reflexivity.
  - assert (NM : nth_error L k = Some m) by (rewrite <- (firstn_skipn k L), SK, nth_error_app2; rewrite firstn_length;
      assert (k < length L)%nat by (destruct (Nat.lt_ge_cases k (length L)) as [G|G]; [exact G|rewrite skipn_all2 in SK by exact G; discriminate]);
      [replace (k - Nat.min k (length L))%nat with 0%nat by lia; reflexivity|lia]).
    assert (SK' : skipn (S k) L = r).
    { clear - SK. revert L SK. induction k as [|k IHk]; intros [|z L] SK; try discriminate; [injection SK as _ <-; reflexivity|apply IHk; exact SK]. }
    assert (Hm : In m (members_of (DSequence x0 c0 L))) by (eapply nth_error_In; exact NM).
    assert (Hdd := visible_defs _ _ _ (defined_visible _ _ _ _ _ D)).
    assert (ACi := AC m y (or_introl eq_refl) E).
    destruct (IH1 (fun _ _ _ _ => ACi) _ _ _ V eq_refl) as (F1 & HF1).
    destruct (IH2 (fun z t Hz => AC z t (or_intror Hz)) x0 c0 L D SK') as (F2 & HF2).
    exists (S (Nat.max (S (length ms)) (Nat.max F1 F2))). intros hs pre post all Eall Ln HH Ap fuel st LF Hst.
    inversion Ap as [|? ? A1 A2]; subst. apply Forall_app in A2. destruct A2 as (A2 & A3).
    set (o := mkocc a (j, d, k) m None) in *.
    assert (GV : given_value (handed_in hs a) (m_key m) = value_of hs o) by exact (value_given_value hs o).
    cbn [go_members]. rewrite GV.
    destruct (hand_down st j d k m (value_of hs o)) as [down st1] eqn:HD.
    destruct (step ms _ hs pre o ((os ++ os') ++ post) st j d k down st1 eq_refl HH eq_refl (defined_member _ _ _ _ _ _ _ _ D NM) Hst HD) as (Ed & Hst1).
    destruct (accepted_member _ _ _ _ Hg Ha Hdd Hm) as (_ & Hok & _).
    assert (Hc := type_ok_element _ Hok). rewrite E in Hc.
    destruct (get_definition_visible ms bun (acc_build _ _ Ha) (acc_unique _ _ Ha) i ACi fuel _ ltac:(lia) (defined_visible _ _ _ _ _ V)) as (r' & G & Er & Vr). cbn [def_name] in G.
    destruct (nested_ref _ _ _ _ _ V Vr) as (Ej & Edd & _); [rewrite Er; reflexivity|].
    rewrite (member_info_named _ _ _ _ _ E Hc), G. cbn [bind]. rewrite Er. cbn [bind].
    destruct fuel as [|fuel]; [lia|]. rewrite (items_of_sequence fuel bun i r' down st1 _ _ _ Er), Ej, Edd.
    assert (Hin : down = handed_in hs (Some (length pre))) by exact Ed. rewrite Hin.
    assert (EA : pre ++ (o :: os ++ os') ++ post = (pre ++ [o]) ++ os ++ os' ++ post)
      by (cbn [app]; repeat rewrite <- app_assoc; cbn [app]; repeat rewrite <- app_assoc; reflexivity).
    assert (EB : pre ++ (o :: os ++ os') ++ post = ((pre ++ [o]) ++ os) ++ os' ++ post)
      by (cbn [app]; repeat rewrite <- app_assoc; cbn [app]; repeat rewrite <- app_assoc; reflexivity).
    destruct (HF1 hs (pre ++ [o]) (os' ++ post) _ EA) with (3 := A2) (4 := ltac:(lia) : (F1 <= fuel)%nat) (5 := Hst1) as (es1 & st2 & E1).
    { rewrite app_length. cbn [length]. lia. }
    { exact HH. }
    destruct (walk_sound _ _ _ _ _ _ _ _ _ H1 _ _ _ V eq_refl hs (pre ++ [o]) (os' ++ post) _ EA) with (3 := Hst1) (4 := E1) as (_ & _ & Hst2).
    { rewrite app_length. cbn [length]. lia. }
    { exact HH. }
    rewrite E1. cbn [bind].
    destruct (HF2 hs ((pre ++ [o]) ++ os) post _ EB) with (3 := A3) (4 := ltac:(lia) : (F2 <= S fuel)%nat) (5 := Hst2) as (es2 & st3 & E2).
    { rewrite !app_length. cbn [length]. lia. }
    { exact HH. }
    rewrite E2. cbn [bind]. eexists. eexists. reflexivity.
Qed.

(** ** Messages *)

Inductive packets_show (m : module) (hs : list (list witem)) : list string -> list (list occurrence) -> list packet -> Prop :=
| ps_nil : packets_show m hs [] [] []
| ps_cons : forall n cm l r os oss p ps, In (DSequence n cm l) (mod_defs m) -> pk_name p = n -> pk_comment p = text_of cm ->
    Forall2 (shows_occurrence hs) (filter is_leaf os) (pk_entries p) -> packets_show m hs r oss ps ->
    packets_show m hs (n :: r) (os :: oss) (p :: ps).

Lemma message_defined : forall i m d df, nth_error ms i = Some m -> nth_error (mod_defs m) d = Some df -> defined_at ms i i d df.
Proof. intros i m d df Hm Hd. split; [constructor|]. exists m. auto. Qed.

Lemma packets_occur : forall i m n msgs oss, nth_error ms i = Some m -> messages_occur ms i m n msgs oss ->
  forall hs pre post all, all = pre ++ concat oss ++ post -> length pre = n -> handed_on all hs ->
  forall fuel st ps, state_is ms hs pre st -> packets fuel bun i msgs st = Ok ps ->
  Forall (apid_known hs) (concat oss) /\ packets_show m hs msgs oss ps.
Proof.
  intros i m n msgs oss Hm H. induction H as [n|n x cm l d r os oss Ed H1 H2 IH]; intros hs pre post all Eall Ln HH fuel st ps Hst R.
  - cbn [packets] in R. injection R as <-. split; constructor.
  - assert (Dx := message_defined _ _ _ _ Hm Ed). cbn [packets] in R. destruct (dict_get x _) as [r'|] eqn:G; [|discriminate].
    destruct (message_ref _ _ Ha _ _ _ _ Hm G) as (V & En & _). destruct (nested_ref _ _ _ _ _ Dx V En) as (Ej & Edd & Er).
    apply bind_ok in R. destruct R as ((es & st') & Hi & R). apply bind_ok in R. destruct R as (rest & Hr & R). injection R as <-.
    destruct fuel as [|fuel]; [discriminate|]. rewrite (items_of_sequence _ _ _ _ _ _ _ _ _ Er), Ej, Edd in Hi.
    cbn [concat] in Eall |- *. rewrite <- app_assoc in Eall.
    destruct (walk_sound _ _ _ _ _ _ _ _ _ H1 _ _ _ Dx eq_refl hs pre (concat oss ++ post) all Eall Ln HH _ _ _ _ Hst Hi) as (A1 & A2 & A3).
    destruct (IH hs (pre ++ os) post all) with (4 := A3) (5 := Hr) as (B1 & B2).
    { rewrite Eall, <- app_assoc. reflexivity. }
    { rewrite app_length. lia. }
    { exact HH. }
    split; [apply Forall_app; auto|]. rewrite Er. econstructor; [eapply nth_error_In; exact Ed|reflexivity|reflexivity|exact A2|exact B2].
Qed.

Lemma packets_run : forall i m n msgs oss, nth_error ms i = Some m -> messages_occur ms i m n msgs oss ->
  (looks_up m msgs -> acyclic_from ms i) ->
  exists F, forall hs pre post all, all = pre ++ concat oss ++ post -> length pre = n -> handed_on all hs -> Forall (apid_known hs) (concat oss) ->
  forall fuel st, (F <= fuel)%nat -> state_is ms hs pre st -> exists ps, packets fuel bun i msgs st = Ok ps.
Proof.
  intros i m n msgs oss Hm H. induction H as [n|n x cm l d r os oss Ed H1 H2 IH]; intros AC.
  - exists 0%nat. intros. eexists. reflexivity.
  - assert (Dx := message_defined _ _ _ _ Hm Ed).
    assert (ACr : looks_up m r -> acyclic_from ms i).
    { intros (n' & cm' & l' & k & y & Hn & X). apply AC. exists n', cm', l', k, y. split; [right; exact Hn|exact X]. }
    assert (ACl : forall k y, In k l -> element (m_type k) = TName y -> acyclic_from ms i).
    { intros k y Hk Ek. apply AC. exists x, cm, l, k, y. repeat split; try assumption; [left; reflexivity|eapply nth_error_In; exact Ed]. }
    destruct (IH ACr) as (F1 & HF1). destruct (walk_complete _ _ _ _ _ _ _ _ _ H1 ACl _ _ _ Dx eq_refl) as (F2 & HF2).
    exists (S (Nat.max F1 F2)). intros hs pre post all Eall Ln HH Ap fuel st LF Hst. cbn [concat] in Eall, Ap. rewrite <- app_assoc in Eall.
    apply Forall_app in Ap. destruct Ap as (Ap1 & Ap2). cbn [packets].
    destruct (dict_get x (map (fun d => (def_name (dr_def d), d)) (module_drefs bun i))) as [r'|] eqn:G;
      [|exfalso; eapply (message_missing _ _ Ha); [exact Hm|eapply nth_error_In; exact Ed|exact G]].
    destruct (message_ref _ _ Ha _ _ _ _ Hm G) as (V & En & _). destruct (nested_ref _ _ _ _ _ Dx V En) as (Ej & Edd & Er).
    destruct fuel as [|fuel]; [lia|]. rewrite (items_of_sequence _ _ _ _ _ _ _ _ _ Er), Ej, Edd.
    destruct (HF2 hs pre (concat oss ++ post) all Eall Ln HH Ap1 fuel st ltac:(lia) Hst) as (es & st' & E1). cbn [handed_in] in E1. rewrite E1. cbn [bind].
    destruct (walk_sound _ _ _ _ _ _ _ _ _ H1 _ _ _ Dx eq_refl hs pre (concat oss ++ post) all Eall Ln HH _ _ _ _ Hst E1) as (_ & _ & A3).
    destruct (HF1 hs (pre ++ os) post all) with (5 := ltac:(lia) : (F1 <= S fuel)%nat) (6 := A3) as (ps & E2).
    { rewrite Eall, <- app_assoc. reflexivity. }
    { rewrite app_length. lia. }
    { exact HH. }
    { exact Ap2. }
    rewrite E2. cbn [bind]. eexists. reflexivity.
Qed.

Lemma messages_exist : forall i m msgs, nth_error ms i = Some m ->
  (forall x, In x msgs -> exists cm l ls, In (DSequence x cm l) (mod_defs m) /\ packet_leaves ms i [] l ls) ->
  forall n, exists oss, messages_occur ms i m n msgs oss.
Proof.
  intros i m msgs Hm. induction msgs as [|x r IH]; intros H n; [exists []; constructor|].
  destruct (H x (or_introl eq_refl)) as (cm & l & ls & Hd & P). apply In_nth_error in Hd. destruct Hd as (d & Hd).
  destruct (leaves_occur _ _ _ _ _ P None n i d 0%nat) as (os & O & _).
  destruct (IH (fun y Hy => H y (or_intror Hy)) (n + length os)%nat) as (oss & Os). exists (os :: oss). econstructor; eassumption.
Qed.
End Accepted.
