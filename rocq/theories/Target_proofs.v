(** * Proofs: the file of cosmos has one text *)
From Coq Require Import Lia QArith.
From Verif Require Import Base PyNum PyStr Ast Size Bundle GenCosmos Main Lib_proofs Str_proofs Spec_Enum Enum_proofs Spec_Grammar Spec_Num Spec_Check
  Spec_Bundle Bundle_proofs Accept_proofs Spec_Size Spec_Cosmos Cosmos_proofs Spec_History History_proofs History_runs_proofs
  Spec_Target Cosmos_text_proofs Letters_proofs Exact_proofs.
Open Scope list_scope.

Lemma same_module_unique : forall m a b, same_module m a -> same_module m b -> a = b.
Proof.
  intros m [na ca ia ka da] [nb cb ib kb db] (A1 & (A2 & A3) & A4 & A5) (B1 & (B2 & B3) & B4 & B5). cbn in *.
  assert (da = db); [|congruence]. eapply (Forall2_unique _ _ same_definition); [|exact A5|exact B5].
  intros d x y _ X Y. destruct d; cbn in X, Y; try congruence. destruct X as (l1 & -> & R1), Y as (l2 & -> & R2).
  rewrite (renumbered_unique _ _ _ R1 R2). reflexivity.
Qed.

Lemma first_named_unique : forall ms i m i' m', first_named ms i m -> first_named ms i' m' -> mod_name m = mod_name m' -> i = i' /\ m = m'.
Proof.
  intros ms i m i' m' (A & F) (A' & F') E. assert (i = i').
  { destruct (Nat.lt_total i i') as [L|[L|L]]; [|exact L|].
    - destruct (F' _ _ L A). exact E.
    - destruct (F _ _ L A'). symmetry. exact E. }
  subst i'. split; [reflexivity|congruence].
Qed.

(** ** Lines *)

Lemma spaces_unique : forall a b, (forall c, has_char c a -> c = " "%char) -> (forall c, has_char c b -> c = " "%char) ->
  String.length a = String.length b -> a = b.
Proof.
  unfold has_char. induction a as [|x a IH]; intros [|y b] A B L; try discriminate L; [reflexivity|].
  injection L as L. rewrite (A x), (B y) by (left; reflexivity). f_equal. apply IH; [| |exact L]; intros c C; [apply A|apply B]; right; exact C.
Qed.

Lemma string_length_app : forall a b, String.length (a ++ b) = (String.length a + String.length b)%nat.
Proof. induction a as [|x a IH]; intros b; [reflexivity|]. cbn. rewrite IH. reflexivity. Qed.

Lemma at_left_unique : forall n s t t', at_left n s t -> at_left n s t' -> t = t'.
Proof.
  intros n s t t' (a & -> & A & L) (b & -> & B & L'). f_equal. apply spaces_unique; try assumption.
  rewrite string_length_app in L, L'. lia.
Qed.
Lemma at_right_unique : forall n s t t', at_right n s t -> at_right n s t' -> t = t'.
Proof.
  intros n s t t' (a & -> & A & L) (b & -> & B & L'). f_equal. apply spaces_unique; try assumption.
  rewrite string_length_app in L, L'. lia.
Qed.

Lemma columns_unique : forall s s' f, in_columns s f -> in_columns s' f -> s = s'.
Proof.
  intros s s' f (k & n & b & t & v & K & N & B & T & V & ->) (k' & n' & b' & t' & v' & K' & N' & B' & T' & V' & ->).
  rewrite (at_left_unique _ _ _ _ K K'), (at_left_unique _ _ _ _ N N'), (at_right_unique _ _ _ _ B B'), (at_left_unique _ _ _ _ T T'),
    (at_right_unique _ _ _ _ V V'). reflexivity.
Qed.

Lemma value_text_unique : forall lf v s s', (forall w, v <> Some (VWith w)) -> value_text lf v s -> value_text lf v s' -> s = s'.
Proof.
  intros lf v s s' N H H'. unfold value_text in *.
  assert (X : (if String.eqb (m_key (lf_member lf)) "application-process-identifier"
      then exists z, s = ("0x" ++ format_X 2 z)%string
             /\ (v = Some (VInt z) \/ (v = Some (VBool true) /\ z = 1%Z) \/ (v = Some (VBool false) /\ z = 0%Z))
      else match v with None => s = ""%string | Some (VWith _) => True | Some v => s = plain_text v end) ->
    (if String.eqb (m_key (lf_member lf)) "application-process-identifier"
      then exists z, s' = ("0x" ++ format_X 2 z)%string
             /\ (v = Some (VInt z) \/ (v = Some (VBool true) /\ z = 1%Z) \/ (v = Some (VBool false) /\ z = 0%Z))
      else match v with None => s' = ""%string | Some (VWith _) => True | Some v => s' = plain_text v end) -> s = s').
  { clear H H'. destruct (String.eqb _ _).
    - intros (z & -> & Z) (z' & -> & Z'). assert (z = z'); [|congruence].
      destruct Z as [Z|[(Z & ->)|(Z & ->)]], Z' as [Z'|[(Z' & ->)|(Z' & ->)]]; congruence.
    - destruct v as [[z|f|b|w]|]; try congruence. destruct (N w eq_refl). }
  destruct (m_type (lf_member lf)); try (apply X; assumption). congruence.
Qed.

Lemma line_unique : forall v lf s s', (forall w, v <> Some (VWith w)) -> line_of_leaf (shown v) lf s -> line_of_leaf (shown v) lf s' -> s = s'.
Proof.
  intros v lf s s' N (f & (_ & C) & F1 & F2 & F3 & F4 & F5 & t & T & V & K) (f' & (_ & C') & F1' & F2' & F3' & F4' & F5' & t' & T' & V' & K').
  rewrite (value_text_unique _ _ _ _ N T T') in V. assert (EV : fd_value f = fd_value f') by congruence. rewrite EV in K.
  assert (E : f = f'); [|subst f'; eapply columns_unique; eassumption]. clear C C'.
  destruct f, f'; cbn in *. congruence.
Qed.

Lemma states_unique : forall l ts ts', lines_of_states l ts -> lines_of_states l ts' -> ts = ts'.
Proof.
  intros l ts ts' (L & H) (L' & H'). apply nth_ext with (d := ""%string) (d' := ""%string); [congruence|]. intros n Hn.
  assert (exists s, nth_error l n = Some s) as (s & S).
  { destruct (nth_error l n) as [s|] eqn:E; [eauto|]. apply nth_error_None in E. lia. }
  assert (A := nth_error_nth' ts ""%string Hn). assert (A' := nth_error_nth' ts' ""%string (n := n) ltac:(lia)).
  destruct (H _ _ _ S A) as (x & X & ->), (H' _ _ _ S A') as (y & Y & ->). rewrite (at_left_unique _ _ _ _ X Y). reflexivity.
Qed.

Lemma has_bounds_dec : forall t b e, has_bounds t b e \/ ~ has_bounds t b e.
Proof.
  intros t b e. destruct t as [[[x y]|]|[[x y]|]| | | | |]; cbn [has_bounds]; try tauto.
  - destruct (fval x) as [s1 m1 e1|], (fval y) as [s2 m2 e2|]; try tauto.
    destruct (Qeq_dec (qval s1 m1 e1) b), (Qeq_dec (qval s2 m2 e2) e); tauto.
  - destruct (Qeq_dec (inject_Z x) b), (Qeq_dec (inject_Z y) e); tauto.
Qed.
Lemma full_range_dec : forall t, full_range t \/ ~ full_range t.
Proof.
  intros t. unfold full_range, posix_ok. 
  destruct (posix_bounds "Float") as [(b & e)|]; [|tauto]. destruct (posix_bounds "Double") as [(b' & e')|]; [|tauto].
  destruct (has_bounds_dec t b e), (has_bounds_dec t b' e'); tauto.
Qed.

Lemma limits_text_unique : forall u t t', text_of_limits u t -> text_of_limits u t' -> t = t'.
Proof.
  intros u t t' H H'. destruct (full_range_dec u) as [F|F]; destruct u as [[[x y]|]|[[x y]|]| | | | |]; cbn [text_of_limits] in *; try congruence;
    destruct H as (A & B), H' as (A' & B').
  - rewrite (A F), (A' F). reflexivity.
  - rewrite (B F), (B' F). reflexivity.
Qed.

Lemma unit_unique : forall u t t', text_of_unit u t -> text_of_unit u t' -> t = t'.
Proof. intros u t t' [(A & ->)|(A & ->)] [(B & ->)|(B & ->)]; congruence. Qed.

Lemma occurrence_unique : forall hs o t t', (forall w, value_of hs o <> Some (VWith w)) ->
  text_of_occurrence hs o t -> text_of_occurrence hs o t' -> t = t'.
Proof.
  intros hs o t t' N (lf & L & H) (lf' & L' & H'). rewrite L in L'. injection L' as <-.
  destruct H as (a & b & c & d & -> & A & B & C & D), H' as (a' & b' & c' & d' & -> & A' & B' & C' & D').
  rewrite (line_unique _ _ _ _ N A A'), (states_unique _ _ _ B B'), (limits_text_unique _ _ _ C C'), (unit_unique _ _ _ D D'). reflexivity.
Qed.

Lemma texts_unique : forall m target hs, NoDup (map def_name (mod_defs m)) -> forall msgs oss ts ts',
  (forall o w, In o (concat oss) -> is_leaf o = true -> value_of hs o <> Some (VWith w)) ->
  texts_of_messages m target hs msgs oss ts -> texts_of_messages m target hs msgs oss ts' -> ts = ts'.
Proof.
  intros m target hs ND msgs oss ts ts' N H. revert ts' N.
  induction H as [|n r os oss t ts H _ IH]; intros ts' N H'; inversion H' as [|n' r' os' oss' t' ts1 T' R']; subst; [reflexivity|].
  f_equal; [|apply IH; [|exact R']; intros o w O; apply N; cbn; apply in_or_app; right; exact O].
  destruct H as (cm & l & xs & D & F & ->), T' as (cm' & l' & xs' & D' & F' & ->).
  assert (E := defined_once _ _ _ ND D D' eq_refl). injection E as <- <-.
  assert (xs = xs') as ->; [|reflexivity]. eapply Forall2_unique; [|exact F|exact F'].
  intros o x y O. apply filter_In in O as (O & L). apply occurrence_unique. intros w. apply N; [|exact L]. cbn. apply in_or_app. left. exact O.
Qed.

(** ** The file *)

Lemma same_names : forall input ms, Forall2 same_module input ms -> map mod_name ms = map mod_name input.
Proof. induction 1 as [|a b l l' (A & _) _ IH]; [reflexivity|]. cbn. rewrite A, IH. reflexivity. Qed.

Lemma parsed_names : forall input ms i m, NoDup (map def_name (definitions input)) -> Forall2 same_module input ms -> nth_error ms i = Some m ->
  NoDup (map def_name (mod_defs m)).
Proof.
  intros input ms i m ND F E. apply nth_error_In in E. destruct (Forall2_in_r _ _ _ _ _ _ F E) as (m0 & M0 & S).
  apply same_defined_names in S. unfold defined_names in S. rewrite S. eapply local_names; eassumption.
Qed.

Theorem target_exact : forall fuel mn msgs target input fs fs', Forall (fun m => grammatical m = true) input ->
  no_addresses input mn msgs ->
  run fuel (GenerateCosmos mn msgs target) input fs = (fs', Ok tt) ->
  forall f text, folder_get fs' f = Some text <->
    (f = (target ++ ".txt")%string /\ exists new, is_telemetry input mn msgs target new /\ text = (old_text fs f ++ new)%string)
    \/ (f <> (target ++ ".txt")%string /\ folder_get fs f = Some text).
Proof.
  intros fuel mn msgs target input fs fs' Hg NA HR f text.
  destruct (run_lists_leaves _ _ _ _ _ _ _ Hg HR) as (_ & _ & _ & _ & O & _).
  destruct (string_dec f (target ++ ".txt")) as [->|Nf]; [|rewrite (O f Nf); tauto].
  assert (ND : NoDup (map def_name (definitions input))).
  { destruct (cosmos_run_inv _ _ _ _ _ _ _ HR) as (bun & ps & Hb & _). eapply cosmos_names. exact Hb. }
  destruct (run_history _ _ _ _ _ _ _ Hg HR) as (ms & ts & S & E & C). fold (old_text fs (target ++ ".txt")) in E. rewrite E.
  assert (U : is_telemetry input mn msgs target (text_of_run ts) /\ forall new, is_telemetry input mn msgs target new -> new = text_of_run ts).
  { destruct C as [(-> & -> & N)|(i & m & oss & hs & Fi & Nm & MO & HO & T & U)].
    - rewrite (same_names _ _ S) in N. split; [left; auto|]. intros new [(_ & _ & ->)|(ms' & i & m & oss & hs & ts & (S' & Fi & Nm & _) & _)]; [reflexivity|].
      exfalso. apply N. rewrite <- (same_names _ _ S'), <- Nm. apply in_map. eapply nth_error_In. apply Fi.
    - assert (H : history input mn msgs ms i m oss hs) by (split; [exact S|auto]).
      split; [right; exists ms, i, m, oss, hs, ts; auto|].
      intros new [(_ & N & _)|(ms' & i' & m' & oss' & hs' & ts' & H' & T' & ->)].
      + exfalso. apply N. rewrite <- (same_names _ _ S), <- Nm. apply in_map. eapply nth_error_In. apply Fi.
      + destruct H' as (S' & Fi' & Nm' & MO' & HO'). assert (ms' = ms) by (eapply Forall2_unique; [|exact S'|exact S]; intros ? ? ? _; apply same_module_unique).
        subst ms'. destruct (first_named_unique _ _ _ _ _ Fi Fi') as (<- & <-); [congruence|].
        destruct (U _ _ MO' HO') as (-> & ->). f_equal. eapply texts_unique; [|intros o w; apply (NA _ _ _ _ _ o w H)|exact T'|exact T].
        eapply parsed_names; [exact ND|exact S|apply Fi]. }
  destruct U as (U1 & U2). split.
  - intros Q. injection Q as <-. left. split; [reflexivity|]. exists (text_of_run ts). auto.
  - intros [(_ & new & Tn & ->)|(N & _)]; [rewrite (U2 _ Tn); reflexivity|contradiction].
Qed.

(** ** When no address is shown *)

Lemma parsed_members : forall input ms d m, Forall2 same_module input ms -> In d (definitions ms) -> In m (members_of d) -> In d (definitions input).
Proof.
  intros input ms d m F D M. apply in_flat_map in D as (x & X & D). destruct (Forall2_in_r _ _ _ _ _ _ F X) as (y & Y & S).
  destruct S as (_ & _ & _ & S). destruct (Forall2_in_r _ _ _ _ _ _ S D) as (d0 & D0 & E).
  apply in_flat_map. exists y. split; [exact Y|]. destruct d0; cbn in E; try congruence. destruct E as (l' & -> & _). destruct M.
Qed.

Lemma parsed_defined : forall input ms i d, Forall2 same_module input ms -> visible ms i d ->
  exists d', In d' (definitions input) /\ def_name d' = def_name d /\ (forall n c l, d' = DSequence n c l -> d = d').
Proof.
  intros input ms i d F (j & x & _ & X & D). apply nth_error_In in X. destruct (Forall2_in_r _ _ _ _ _ _ F X) as (y & Y & S).
  destruct S as (_ & _ & _ & S). destruct (Forall2_in_r _ _ _ _ _ _ S D) as (d0 & D0 & E). exists d0.
  split; [apply in_flat_map; eauto|]. destruct d0; cbn in E; try (subst d; split; [reflexivity|auto]).
  destruct E as (l' & -> & _). split; [reflexivity|]. intros; discriminate.
Qed.

Definition in_defs (ds : list definition) (m : member) : Prop := exists d, In d ds /\ In m (members_of d).
Definition occurs_in (ms : list module) (i : nat) (o : occurrence) : Prop :=
  in_defs (definitions ms) (oc_member o) /\ (is_leaf o = true -> exists u c w s, item_type ms i (m_type (oc_member o)) u c w s).

Lemma occurrences_in : forall ms i p a n j d k l os, members_occur ms i p a n j d k l os ->
  Forall (in_defs (definitions ms)) l -> Forall (occurs_in ms i) os.
Proof.
  intros ms i p a n j d k l os H.
  induction H as [p a n j d k|p a n j d k m r u c w s os I H IH|p a n j d k m r x cm l j' d' os os' E V H1 IH1 H2 IH2]; intros F.
  - constructor.
  - inversion F; subst. constructor; [|auto]. split; [assumption|]. intros _. exists u, c, w, s. exact I.
  - inversion F; subst. constructor; [split; [assumption|discriminate]|]. apply Forall_app. split; [|auto]. apply IH1. apply Forall_forall. intros y Hy.
    exists (DSequence x cm l). split; [|exact Hy]. destruct (defined_visible _ _ _ _ _ V) as (? & z & _ & Z & D). apply nth_error_In in Z. apply in_flat_map. eauto.
Qed.
Lemma messages_in : forall ms i m n msgs oss, nth_error ms i = Some m -> messages_occur ms i m n msgs oss -> Forall (occurs_in ms i) (concat oss).
Proof.
  intros ms i m n msgs oss Hm H. induction H as [n|n x cm l d r os oss Ed H1 H2 IH]; [constructor|]. cbn. apply Forall_app. split; [|exact IH].
  eapply occurrences_in; [exact H1|]. apply Forall_forall. intros y Hy. exists (DSequence x cm l). split; [|exact Hy].
  apply in_flat_map. exists m. split; eapply nth_error_In; eassumption.
Qed.

Lemma value_item : forall hs o w, value_of hs o = Some (VWith w) -> exists a c, oc_around o = Some a /\ In (WI (m_key (oc_member o)) (VWith w) c) (nth a hs []).
Proof.
  intros hs o w H. unfold value_of in H. destruct (oc_around o) as [a|]; [|discriminate].
  assert (X : In (VWith w) (values_for (m_key (oc_member o)) (nth a hs []))).
  { destruct (values_for _ _) as [|v [|? ?]]; try discriminate. injection H as ->. left. reflexivity. }
  unfold values_for in X. apply in_map_iff in X as ([k v c] & E & X). cbn in E. subst v. apply filter_In in X as (X & K). cbn in K. apply String.eqb_eq in K. subst k.
  exists a, c. auto.
Qed.

Lemma handed_known : forall ds os hs, ordered 0 os -> handed_on os hs -> Forall (fun o => in_defs ds (oc_member o)) os ->
  forall n, Forall (component_in ds) (nth n hs []).
Proof.
  intros ds os hs O H F n. induction n as [n IH] using lt_wf_ind.
  destruct (nth_error os n) as [o|] eqn:E.
  2:{ rewrite nth_overflow; [constructor|]. apply nth_error_None in E. destruct H as (L & _). lia. }
  rewrite (handed_nth _ _ _ _ H E).
  assert (C : forall k o', nth_error os k = Some o' -> (k <= n)%nat -> Forall (component_in ds) (clause_of hs o')).
  { intros k o' Ek Lk. unfold clause_of. destruct (value_of hs o') as [[z|f|b|w]|] eqn:V; try constructor.
    destruct (value_item _ _ _ V) as (a & c & A & X). assert (B := O k o' Ek a A). specialize (IH a ltac:(lia)).
    rewrite Forall_forall in IH. specialize (IH _ X). destruct IH as (d & m & w' & D & M & W & K). apply Forall_forall. intros i I.
    exists d, m, w'. split; [exact D|]. split; [exact M|]. split; [exact W|]. eapply component_trans; [exact K|reflexivity|exact I]. }
  unfold rule. destruct (m_with (oc_member o)) as [w|] eqn:W; [|eapply C; [exact E|lia]].
  apply Forall_app. split.
  - rewrite Forall_forall in F. destruct (F o) as (d & D & M); [eapply nth_error_In; exact E|]. apply Forall_forall. intros i I.
    exists d, (oc_member o), w. split; [exact D|]. split; [exact M|]. split; [exact W|]. constructor. exact I.
  - apply Forall_flat_map, Forall_forall. intros o' I. apply filter_In in I as (I & _). apply In_nth_error in I as (k & K).
    assert (Lk : (k < S n)%nat). { assert (X : (k < length (firstn (S n) os))%nat) by (apply nth_error_Some; congruence). rewrite firstn_length in X. lia. }
    apply (C k); [|lia]. rewrite <- (firstn_skipn (S n) os). rewrite nth_error_app1; [exact K|]. apply nth_error_Some. congruence.
Qed.

Theorem addresses_avoided : forall input mn msgs, NoDup (map def_name (definitions input)) ->
  (forall k w c d m, component_in (definitions input) (WI k (VWith w) c) -> In d (definitions input) -> In m (members_of d) -> m_key m = k ->
     exists n cm l, element (m_type m) = TName n /\ In (DSequence n cm l) (definitions input)) ->
  no_addresses input mn msgs.
Proof.
  intros input mn msgs ND H ms i m oss hs o w (S & Fi & Nm & MO & HO) I L V.
  assert (F := messages_in _ _ _ _ _ _ (proj1 Fi) MO). assert (OR := messages_ordered _ _ _ _ _ _ MO).
  destruct (value_item _ _ _ V) as (a & c & A & X).
  assert (K := handed_known (definitions ms) _ _ OR HO). rewrite Forall_forall in F.
  specialize (K ltac:(apply Forall_forall; intros x Hx; apply (F x Hx)) a). rewrite Forall_forall in K. specialize (K _ X).
  destruct K as (d & y & w' & D & Y & W & C). destruct (F o I) as ((d' & D' & Y') & IT). destruct (IT L) as (u & ct & b & s & T).
  assert (KI : component_in (definitions input) (WI (m_key (oc_member o)) (VWith w) c)).
  { exists d, y, w'. split; [eapply parsed_members; eassumption|auto]. }
  destruct (H _ _ _ d' (oc_member o) KI) as (n & cm & l & E & DS); [eapply parsed_members; eassumption|exact Y'|reflexivity|].
  inversion T as [t' c' w0 E1 NB WI0|t' E1|k0 n0|t' n' u' cm' c' w0 E1 V1 W1|t' n' cm' l' w0 E1 V1 W1]; subst.
  - rewrite E1 in E. rewrite E in WI0. inversion WI0. discriminate.
  - congruence.
  - match goal with Q : _ = m_type _ |- _ => rewrite <- Q in E end. discriminate.
  - rewrite E in E1. injection E1 as <-. destruct (parsed_defined _ _ _ _ S V1) as (dd & DD & N1 & N2).
    assert (Q := defined_once _ _ _ ND DD DS N1). rewrite (N2 _ _ _ Q) in V1. specialize (N2 _ _ _ Q). subst dd. discriminate.
  - rewrite E in E1. injection E1 as <-. destruct (parsed_defined _ _ _ _ S V1) as (dd & DD & N1 & N2).
    assert (Q := defined_once _ _ _ ND DD DS N1). specialize (N2 _ _ _ Q). subst dd. discriminate.
Qed.
