(** * Proofs: further definitions, the files of cfs, c and binary (C94) *)
From Coq Require Import Permutation Sorted Lia.
From Verif Require Import Base PyNum PyStr Ast Size Processor Bundle Sorter CCommon GenCfs GenC GenBinary GenCosmos Main
  Lib_proofs Str_proofs Spec_Enum Enum_proofs Spec_Num Num_proofs Spec_Check Check_proofs Spec_Grammar Spec_Bundle Bundle_proofs
  Name_proofs Accept_proofs Spec_Gen Gen_proofs Field_proofs Spec_Order Order_proofs Cdata_proofs Run_proofs Note_proofs
  Spec_Files Files_proofs Fuel_proofs Spec_Layout Spec_Cfs Spec_Binary Binary_proofs Spec_Runs Runs_proofs Runs2_proofs Spec_Failures Failures_proofs
  Spec_Inputs Inputs_proofs Spec_Size Spec_Reorder Reorder_proofs Reorder_files_proofs Spec_Grown Grown_proofs.
Open Scope string_scope.
Open Scope list_scope.

Lemma permuted_filter : forall A (f : A -> bool) l l', Permutation l l' -> Permutation (filter f l) (filter f l').
Proof.
  intros A f l l' P. induction P as [|x l l' P IH|x y l|l1 l2 l3 P1 IH1 P2 IH2]; cbn [filter]; [constructor| | |eapply Permutation_trans; eassumption].
  - destruct (f x); [constructor|]; exact IH.
  - destruct (f x), (f y); try reflexivity. constructor.
Qed.
Lemma filter_mapped : forall A B (f : B -> bool) (g : A -> B) l, filter f (map g l) = map g (filter (fun x => f (g x)) l).
Proof. intros A B f g l. induction l as [|x l IH]; [reflexivity|]. cbn [map filter]. rewrite IH. destruct (f (g x)); reflexivity. Qed.
Lemma find_filtered : forall A (f p : A -> bool) l, (forall x, In x l -> f x = true -> p x = true) -> find f (filter p l) = find f l.
Proof.
  intros A f p l H. induction l as [|x l IH]; [reflexivity|]. cbn [filter find]. assert (I : find f (filter p l) = find f l) by (apply IH; intros y Y; apply H; right; exact Y).
  destruct (f x) eqn:Fx; [rewrite (H x (or_introl eq_refl) Fx); cbn [find]; rewrite Fx; reflexivity|].
  destruct (p x); [cbn [find]; rewrite Fx|]; exact I.
Qed.

(** ** Sorting *)

Section Sort.
Variable fresh : string -> bool.
Definition keep (d : definition) : bool := negb (fresh (def_name d)).
Definition independent (l : list definition) : Prop :=
  forall d k, In d l -> keep d = true -> In k (def_children d) -> fresh (type_name (m_type k)) = false.
Definition alike (a a' : list string) : Prop := forall n, fresh n = false -> mem n a = mem n a'.

Lemma all_defined_alike : forall a a' d, alike a a' -> (forall k, In k (def_children d) -> fresh (type_name (m_type k)) = false) ->
  all_defined a d = all_defined a' d.
Proof.
  intros a a' d A I. unfold all_defined. induction (def_children d) as [|k l IH]; [reflexivity|]. cbn [forallb].
  rewrite (A _ (I k (or_introl eq_refl))), IH; [reflexivity|]. intros x X. apply I. right. exact X.
Qed.

Lemma pass_keeps : forall todo done defined' defined d2 n2 r2, independent todo -> alike defined defined' ->
  sort_pass todo done defined' = (d2, n2, r2) ->
  exists n1, sort_pass (filter keep todo) (filter keep done) defined = (filter keep d2, n1, filter keep r2) /\ alike n1 n2 /\ incl r2 todo.
Proof.
  induction todo as [|d todo IH]; intros done defined' defined d2 n2 r2 I A H; cbn [sort_pass filter] in *.
  { injection H as <- <- <-. exists defined. split; [reflexivity|]. split; [exact A|intros x []]. }
  assert (I' : independent todo) by (intros x k X; apply I; right; exact X).
  destruct (all_defined defined' d) eqn:D.
  - assert (A2 : keep d = false -> alike defined (defined' ++ [def_name d])).
    { intros K n Fn. rewrite mem_app, (A n Fn). cbn [mem existsb]. destruct (String.eqb_spec n (def_name d)) as [->|]; [|rewrite Bool.orb_false_r; reflexivity].
      unfold keep in K. rewrite Fn in K. discriminate. }
    destruct (keep d) eqn:K.
    + cbn [sort_pass]. rewrite (all_defined_alike defined defined' d A) by (intros k J; apply (I d k (or_introl eq_refl) K J)). rewrite D.
      apply (IH _ _ (defined ++ [def_name d])) in H; [|exact I'|].
      * destruct H as (n1 & H & A1 & In1). exists n1. rewrite filter_app in H. cbn [filter] in H. rewrite K in H. split; [exact H|]. split; [exact A1|]. intros x X. right. apply In1, X.
      * intros n Fn. rewrite !mem_app, (A n Fn). reflexivity.
    + apply (IH _ _ defined) in H; [|exact I'|apply A2; reflexivity].
      destruct H as (n1 & H & A1 & In1). exists n1. rewrite filter_app in H. cbn [filter] in H. rewrite K, app_nil_r in H. split; [exact H|]. split; [exact A1|]. intros x X. right. apply In1, X.
  - destruct (sort_pass todo done defined') as [[d3 n3] r3] eqn:Q. injection H as <- <- <-.
    destruct (IH _ _ defined _ _ _ I' A Q) as (n1 & H & A1 & In1). exists n1. cbn [filter].
    destruct (keep d) eqn:K.
    + cbn [sort_pass]. rewrite (all_defined_alike defined defined' d A) by (intros k J; apply (I d k (or_introl eq_refl) K J)). rewrite D, H.
      split; [reflexivity|]. split; [exact A1|]. intros x [<-|X]; [left; reflexivity|right; apply In1, X].
    + split; [exact H|]. split; [exact A1|]. intros x [<-|X]; [left; reflexivity|right; apply In1, X].
Qed.

Lemma loop_keeps : forall fuel todo done defined' defined r, independent todo -> alike defined defined' ->
  sort_loop fuel todo done defined' = Ok r -> sort_loop fuel (filter keep todo) (filter keep done) defined = Ok (filter keep r).
Proof.
  induction fuel as [|fuel IH]; intros todo done defined' defined r I A H.
  - destruct todo; [|discriminate]. cbn in *. injection H as <-. reflexivity.
  - destruct todo as [|d todo]; [cbn in *; injection H as <-; reflexivity|]. cbn [sort_loop] in H.
    destruct (sort_pass (d :: todo) done defined') as [[d2 n2] r2] eqn:Q.
    destruct (pass_keeps _ _ _ defined _ _ _ I A Q) as (n1 & P & A1 & In1).
    assert (K : sort_loop fuel (filter keep r2) (filter keep d2) n1 = Ok (filter keep r)).
    { eapply IH; [|exact A1|exact H]. intros x k X. apply I, In1, X. }
    destruct (filter keep (d :: todo)) as [|y l] eqn:E.
    + cbn [sort_pass] in P. assert (P1 : filter keep d2 = filter keep done) by congruence. assert (P2 : filter keep r2 = []) by congruence.
      rewrite P1, P2 in K. destruct fuel; exact K.
    + cbn [sort_loop]. rewrite P. exact K.
Qed.
End Sort.

(** ** Two accepted inputs *)

Lemma name_parsed : forall d, def_name (parsed d) = def_name d.
Proof.
  intros d. unfold parsed. destruct (process_definition d) as [x|e|] eqn:E; try reflexivity. destruct d as [n c l|n c l|n c l|n t c]; cbn [process_definition] in E;
  repeat (apply bind_ok in E as (? & ? & E)); injection E as <-; reflexivity.
Qed.
Lemma simple_parsed : forall d n t c, parsed d = DSimple n t c <-> d = DSimple n t c.
Proof.
  intros d n t c. unfold parsed. destruct (process_definition d) as [x|e|] eqn:E; try reflexivity. destruct d as [n' c' l|n' c' l|n' c' l|n' t' c']; cbn [process_definition] in E;
  repeat (apply bind_ok in E as (? & ? & E)); injection E as <-; split; congruence.
Qed.

Lemma parse_grown : forall m m' p p', grown m m' -> parse_module m = Ok p -> parse_module m' = Ok p' -> grown p p'.
Proof.
  intros m m' p p' S H H'. assert (D := parsed_defs _ _ H). assert (D' := parsed_defs _ _ H'). destruct (parse_module_same _ _ H) as (A1 & (A2 & A3) & A4 & _).
  destruct (parse_module_same _ _ H') as (B1 & (B2 & B3) & B4 & _). destruct S as [S1 S2 S3 S4 S5]. split; try congruence.
  rewrite D, D'. apply inserted_map, S5.
Qed.
Lemma parses_grown : forall l l' p p', Forall2 grown l l' -> parse_modules l = Ok p -> parse_modules l' = Ok p' -> Forall2 grown p p'.
Proof.
  intros l l' p p' F H H'. unfold parse_modules in *. apply map_result_ok in H, H'. revert p p' H H'.
  induction F as [|m m' l l' S F IH]; intros p p' H H'; inversion H; inversion H'; subst; constructor; [|auto].
  eapply parse_grown; eassumption.
Qed.

Lemma last_index_grown : forall ms ms' n, Forall2 grown ms ms' -> last_index n ms = last_index n ms'.
Proof.
  intros ms ms' n F. unfold last_index. generalize 0%nat. induction F as [|m m' l l' S F' IH]; intros i; [reflexivity|]. cbn [last_index_from].
  rewrite IH, (gr_name _ _ S). reflexivity.
Qed.
Lemma imported_grown : forall ms ms' i m m', Forall2 grown ms ms' -> grown m m' -> imported_of ms i m = imported_of ms' i m'.
Proof.
  intros ms ms' i m m' F S. unfold imported_of. rewrite <- (last_index_grown _ _ _ F), (gr_name _ _ S). destruct (last_index (mod_name m) ms) as [j|]; [|reflexivity].
  destruct (Nat.eqb i j); [|reflexivity]. unfold dependencies. rewrite (gr_imports _ _ S). apply flat_map_ext. intros x. rewrite (last_index_grown _ _ _ F). reflexivity.
Qed.
Lemma bmodule_grown : forall ms ms' b b' i, Forall2 grown ms ms' -> build ms = Ok b -> build ms' = Ok b' ->
  match nth_error (b_modules b) i, nth_error (b_modules b') i with
  | Some bm, Some bm' => grown (bm_mod bm) (bm_mod bm') /\ bm_imported bm' = bm_imported bm | None, None => True | _, _ => False end.
Proof.
  intros ms ms' b b' i F B B'. rewrite (build_nth _ _ _ B), (build_nth _ _ _ B'). destruct (nth_error ms i) as [m|] eqn:M.
  - destruct (grown_nth _ _ _ _ F M) as (m' & -> & S). cbn. split; [exact S|]. symmetry. apply imported_grown; assumption.
  - destruct (nth_error ms' i) as [m'|] eqn:M'; [|exact I]. destruct (grown_nth_r _ _ _ _ F M') as (m & Q & _). congruence.
Qed.

Section Configs.
Variables (names : list string) (input input' : list module) (b b' : bundle).
Hypothesis C : config names input b.
Hypothesis C' : config names input' b'.
Hypothesis R : Forall2 grown input input'.

Lemma built_grown : exists ms ms', Forall2 grown ms ms' /\ build ms = Ok b /\ build ms' = Ok b' /\ all_modules b = ms /\ all_modules b' = ms'.
Proof.
  destruct (build_from_config_inv _ _ _ (proj2 C)) as (ms & P & B & A & _). destruct (build_from_config_inv _ _ _ (proj2 C')) as (ms' & P' & B' & A' & _).
  exists ms, ms'. split; [eapply parses_grown; eassumption|]. auto.
Qed.
Lemma unique' : NoDup (map def_name (all_defs b')).
Proof. apply (accepted_same _ _ (config_accepted _ _ _ C')). Qed.
Lemma defs_inserted : inserted (all_defs b) (all_defs b').
Proof. destruct built_grown as (ms & ms' & F & _ & _ & A & A'). unfold all_defs. rewrite A, A'. apply (grown_definitions _ _ F). Qed.

(** The names of the further definitions. *)
Definition fresh (n : string) : bool := mem n (map def_name (all_defs b')) && negb (mem n (map def_name (all_defs b))).
Lemma fresh_no : forall n, In n (map def_name (all_defs b)) -> fresh n = false.
Proof. intros n H. unfold fresh. apply mem_In in H. rewrite H. apply Bool.andb_false_r. Qed.
Lemma fresh_none : forall n, ~ In n (map def_name (all_defs b')) -> fresh n = false.
Proof. intros n H. unfold fresh. apply mem_not_In in H. rewrite H. reflexivity. Qed.

Lemma lookup_grown : forall n, fresh n = false -> lookup_def (all_defs b) n = lookup_def (all_defs b') n.
Proof.
  intros n H. assert (I := inserted_incl _ _ _ defs_inserted).
  destruct (mem n (map def_name (all_defs b))) eqn:M.
  - apply mem_In, in_map_iff in M as (d & <- & D). rewrite (lookup_unique _ d (proj2 (proj2 (accepted_same _ _ (config_accepted _ _ _ C)))) D).
    rewrite (lookup_unique _ d unique' (I _ D)). reflexivity.
  - unfold fresh in H. rewrite M in H. cbn in H. rewrite Bool.andb_true_r in H. apply mem_not_In in H, M. rewrite (proj2 (lookup_none _ _) M), (proj2 (lookup_none _ _) H). reflexivity.
Qed.

Lemma members_old : forall d k, In d (all_defs b) -> In k (members_of d) -> fresh (type_name (m_type k)) = false.
Proof.
  intros d k J Kl. assert (J' := J). apply in_all_defs in J as (bm & Hbm & J).
  destruct (accepted_member _ _ d k (proj1 C) (config_accepted _ _ _ C) J' Kl) as (_ & Ok & _ & Nn).
  destruct (element (m_type k)) as [r|r| | |s len|len t|x] eqn:E.
  7: { apply fresh_no. rewrite (element_name _ _ E).
    destruct (config_used_type _ _ _ bm _ k x C Hbm J Kl E) as [H|(i & im & _ & Im & H)]; apply in_map_iff in H as (d0 & <- & H); apply in_map, in_all_defs;
      [eauto|exists im; split; [eapply nth_error_In; exact Im|exact H]]. }
  all: apply fresh_none; apply lookup_none; apply lookup_keyword; [intros d0 D; apply (accepted_capital _ _ d0 (proj1 C') (config_accepted _ _ _ C') D)|exact Ok|
    intros (x & X); congruence|rewrite E; exact Nn].
Qed.
Lemma lookup_closed : forall n n' c l k, fresh n = false -> lookup_def (all_defs b) n = Some (DSequence n' c l) -> In k l -> fresh (type_name (m_type k)) = false.
Proof. intros n n' c l k _ H J. apply lookup_In in H as (D & _). exact (members_old _ _ D J). Qed.

Lemma note_grown : forall n t, (forall i u u', nth_error input i = Some u -> nth_error input' i = Some u' -> uses_type u' n -> uses_type u n) ->
  cfs_note b n t = cfs_note b' n t.
Proof.
  intros n t H.
  assert (U : forall x, (exists m, In m input /\ x = mod_name m /\ uses_type m n) <-> (exists m, In m input' /\ x = mod_name m /\ uses_type m n)).
  { intros x. split; intros (m & M & -> & Q); apply In_nth_error in M as (i & M).
    - destruct (grown_nth _ _ _ _ R M) as (m' & M' & S). exists m'. split; [eapply nth_error_In; exact M'|]. split; [symmetry; apply S|eapply grown_uses; eassumption].
    - destruct (grown_nth_r _ _ _ _ R M) as (m' & M' & S). exists m'. split; [eapply nth_error_In; exact M'|]. split; [apply S|eapply H; eassumption]. }
  destruct (note_text _ _ _ n t (proj1 C) (proj2 C)) as [(V & ->)|(us & Ne & Nd & So & Iff & ->)];
  destruct (note_text _ _ _ n t (proj1 C') (proj2 C')) as [(V' & ->)|(us' & Ne' & Nd' & So' & Iff' & ->)]; [reflexivity| | |].
  - destruct us' as [|x us']; [congruence|]. destruct (proj2 (U x) (proj1 (Iff' x) (or_introl eq_refl))) as (m & M & _ & T). destruct (V m M T).
  - destruct us as [|x us]; [congruence|]. destruct (proj1 (U x) (proj1 (Iff x) (or_introl eq_refl))) as (m & M & _ & T). destruct (V' m M T).
  - assert (us = us') as ->; [|reflexivity]. apply sorted_unique; auto. intros x. rewrite Iff, Iff'. apply U.
Qed.

(** The definitions of a module without the further ones. *)
Lemma defs_filtered : forall i x x', nth_error (b_modules b) i = Some x -> nth_error (b_modules b') i = Some x' ->
  mod_defs (bm_mod x) = filter (keep fresh) (mod_defs (bm_mod x')).
Proof.
  intros i x x' Hx Hx'. destruct built_grown as (ms & ms' & F & B & B' & A & A'). assert (G := bmodule_grown ms ms' b b' i F B B'). rewrite Hx, Hx' in G. destruct G as (S & _).
  assert (M : nth_error ms i = Some (bm_mod x)) by (rewrite <- A; unfold all_modules; rewrite nth_error_map, Hx; reflexivity).
  assert (M' : nth_error ms' i = Some (bm_mod x')) by (rewrite <- A'; unfold all_modules; rewrite nth_error_map, Hx'; reflexivity).
  assert (N := unique'). symmetry. apply (kept _ def_name).
  - apply S.
  - unfold all_defs, all_modules in N. apply nth_error_split in Hx' as (l1 & l2 & E & _). rewrite E in N.
    rewrite map_app, flat_map_app, map_app in N. cbn [map flat_map] in N. rewrite map_app in N. apply NoDup_app_iff in N as (_ & N & _).
    apply NoDup_app_iff in N. apply N.
  - intros d D. unfold keep. rewrite fresh_no; [reflexivity|]. apply in_map, in_all_defs. exists x. split; [eapply nth_error_In; exact Hx|exact D].
  - intros d D K. apply in_map. eapply (old_name ms ms'); [exact F| |exact M|exact M'|exact D|].
    + unfold all_defs in N. rewrite A' in N. exact N.
    + unfold keep, fresh in K. assert (T : mem (def_name d) (map def_name (all_defs b')) = true).
      { apply mem_In, in_map, in_all_defs. exists x'. split; [eapply nth_error_In; exact Hx'|exact D]. }
      rewrite T in K. cbn in K. rewrite Bool.negb_involutive in K. apply mem_In in K. unfold all_defs in K. rewrite A in K. exact K.
Qed.
Lemma simple_filtered : forall l, simple_defs (filter (keep fresh) l) = filter (fun p => negb (fresh (fst p))) (simple_defs l).
Proof.
  intros l. induction l as [|d l IH]; [reflexivity|]. cbn [filter]. unfold keep at 1. unfold simple_defs in *. 
  destruct d as [n c k|n c k|n c k|n t c]; cbn [def_name flat_map app filter fst]; destruct (fresh n); cbn [negb flat_map app filter fst]; rewrite ?IH; try reflexivity.
Qed.
Lemma simple_list_filtered : forall i x x', nth_error (b_modules b) i = Some x -> nth_error (b_modules b') i = Some x' ->
  simple_definition_list b x = filter (fun p => negb (fresh (fst p))) (simple_definition_list b' x').
Proof.
  intros i x x' Hx Hx'. destruct built_grown as (ms & ms' & F & B & B' & A & A'). assert (G := bmodule_grown ms ms' b b' i F B B'). rewrite Hx, Hx' in G. destruct G as (_ & Im).
  unfold simple_definition_list. rewrite filter_app, (defs_filtered _ _ _ Hx Hx'), simple_filtered, Im. f_equal. clear Im.
  induction (bm_imported x) as [|j l IH]; [reflexivity|]. cbn [flat_map]. rewrite filter_app, IH. f_equal.
  assert (G := bmodule_grown ms ms' b b' j F B B'). destruct (nth_error (b_modules b) j) as [y|] eqn:Y, (nth_error (b_modules b') j) as [y'|] eqn:Y'; try contradiction; [|reflexivity].
  rewrite (defs_filtered _ _ _ Y Y'), simple_filtered. reflexivity.
Qed.

(** The C type of a member is not the name of a further definition. *)
Lemma direct_lower : forall t cm, map_direct t = Ok cm -> exists ch r, cm_ctype cm = String ch r /\ is_upper ch = false.
Proof.
  intros t cm Hcm. unfold map_direct in Hcm. destruct (get_c_type t) as [ct|]; [|discriminate].
  apply bind_ok in Hcm. destruct Hcm as (sz & _ & Hcm). apply bind_ok in Hcm. destruct Hcm as (u & _ & Hcm).
  destruct ct; try (injection Hcm as <-; do 2 eexists; repeat split; reflexivity).
  destruct (mem ("uint" ++ str_of_Z (next_bit_size sz) ++ "_t") POSIX_DEFINED_TYPES);
    injection Hcm as <-; do 2 eexists; repeat split; reflexivity.
Qed.
Lemma posix_is_lower : forall s, mem s POSIX_DEFINED_TYPES = true -> exists ch r, s = String ch r /\ is_upper ch = false.
Proof. intros s H. apply mem_In in H. cbn in H. repeat (destruct H as [<-|H]; [do 2 eexists; split; reflexivity|]). destruct H. Qed.

Lemma named_element : forall t, type_name t = type_name (element t).
Proof. induction t; cbn; auto. Qed.
Lemma type_not_fresh : forall fuel d k cm n, In d (all_defs b) -> In k (members_of d) -> map_member fuel (all_defs b) (m_type k) = Ok cm ->
  fresh n = true -> c_name n <> (if mem (lowerize (cm_ctype cm)) POSIX_DEFINED_TYPES then lowerize (cm_ctype cm) else cm_ctype cm).
Proof.
  intros fuel d k cm n D K M Fn E.
  assert (Cap : is_name_capital n = true).
  { unfold fresh in Fn. apply andb_prop in Fn as (Fn & _). apply mem_In, in_map_iff in Fn as (x & <- & X). exact (config_capital _ _ _ _ C' X). }
  assert (Low : forall s ch r, c_name n = s -> s = String ch r -> is_upper ch = false -> False).
  { intros s ch r E1 E2 U. rewrite E2 in E1. assert (Q := first_char n ch r Cap E1). congruence. }
  destruct (mem (lowerize (cm_ctype cm)) POSIX_DEFINED_TYPES) eqn:Po; [destruct (posix_is_lower _ Po) as (ch & r & E2 & U); exact (Low _ _ _ E E2 U)|].
  unfold map_member in M. cbv zeta in M.
  destruct (mem (c_name (type_name (m_type k))) ["INTEGER"; "REAL"]) eqn:V1; [destruct (direct_lower _ _ M) as (ch & r & E2 & U); exact (Low _ _ _ E E2 U)|].
  destruct (String.eqb (c_name (type_name (m_type k))) "BOOLEAN") eqn:V2; [injection M as <-; exact (Low _ _ _ E eq_refl eq_refl)|].
  assert (T : cm_ctype cm = c_name (type_name (m_type k))).
  { destruct (resolve _ _) as [| |[]|]; try (injection M as <-; reflexivity). apply bind_ok in M as (? & _ & M). injection M as <-. reflexivity. }
  rewrite T in E. assert (D' := D). apply in_all_defs in D' as (bm & Hbm & D').
  destruct (accepted_member _ _ d k (proj1 C) (config_accepted _ _ _ C) D K) as (_ & Okk & _ & Nn).
  destruct (element (m_type k)) as [r|r| | |s len|len t|x] eqn:El.
  7: { rewrite (element_name _ _ El) in E.
    assert (X : In x (map def_name (all_defs b))).
    { destruct (config_used_type _ _ _ bm _ k x C Hbm D' K El) as [H|(j & im & _ & Im & H)]; apply in_map_iff in H as (d0 & <- & H); apply in_map, in_all_defs;
        [eauto|exists im; split; [eapply nth_error_In; exact Im|exact H]]. }
    assert (Cx : is_name_capital x = true) by (apply in_map_iff in X as (y & <- & Y); exact (config_capital _ _ _ _ C Y)).
    apply c_name_inj in E; try (apply capital_name; assumption). subst x. rewrite fresh_no in Fn by exact X. discriminate. }
  all: rewrite (named_element (m_type k)) in E, V1, V2; rewrite El in E, V1, V2; cbn [type_name] in E, V1, V2.
  - discriminate V1.
  - discriminate V1.
  - congruence.
  - discriminate V2.
  - destruct s; exact (Low _ _ _ E eq_refl eq_refl).
  - clear - El. revert El. generalize (m_type k). intros t0. induction t0; cbn; intros Q; try discriminate; auto.
Qed.

Lemma member_grown : forall fuel i x x' d k, nth_error (b_modules b) i = Some x -> nth_error (b_modules b') i = Some x' ->
  In d (all_defs b) -> In k (members_of d) ->
  convert_member fuel (all_defs b) (simple_definition_list b x) k = convert_member fuel (all_defs b') (simple_definition_list b' x') k.
Proof.
  intros fuel i x x' d k Hx Hx' D K.
  rewrite <- (convert_member_cong (all_defs b) (all_defs b') (fun n => fresh n = false) lookup_grown lookup_closed fuel _ k (members_old _ _ D K)).
  unfold convert_member. destruct (map_member fuel (all_defs b) (m_type k)) as [cm|e|] eqn:M; try reflexivity. cbn [bind].
  rewrite (simple_list_filtered _ _ _ Hx Hx'), find_filtered; [reflexivity|].
  intros [n t] _ E. cbn [fst] in *. apply String.eqb_eq in E. destruct (fresh n) eqn:Fn; [|reflexivity]. destruct (type_not_fresh _ _ _ _ _ D K M Fn E).
Qed.

Section Note.
Variables note note' : string -> asn_type -> result (option string).
Variables wch wch' : string -> member -> result cdata.
Hypothesis W : forall n k, agree (wch n k) (wch' n k).

Lemma members_grown : forall fuel i x x' d, nth_error (b_modules b) i = Some x -> nth_error (b_modules b') i = Some x' -> In d (all_defs b) ->
  forall name l, incl l (members_of d) -> forall fields acc,
  agree (convert_members fuel (all_defs b) (simple_definition_list b x) wch name l fields acc)
        (convert_members fuel (all_defs b') (simple_definition_list b' x') wch' name l fields acc).
Proof.
  intros fuel i x x' d Hx Hx' D name. induction l as [|m l IH]; intros J fields acc; cbn [convert_members]; [apply agree_refl|].
  rewrite (member_grown _ _ _ _ _ m Hx Hx' D (J m (or_introl eq_refl))).
  apply agree_bind; [apply agree_refl|]. intros [[f sb] si]. apply agree_bind; [|intros a; apply IH; intros y Y; apply J; right; exact Y].
  destruct (m_with m); [|apply agree_refl]. apply agree_bind; [apply W|]. intros c. apply agree_refl.
Qed.

(** All but the note is the same. *)
Record same_piece (c c' : cdata) : Prop :=
  { sp_data : cd_data c' = cd_data c; sp_defines : cd_defines c' = cd_defines c; sp_inits : cd_inits c' = cd_inits c;
    sp_predefs : cd_predefs c' = cd_predefs c; sp_stdbool : cd_stdbool c' = cd_stdbool c; sp_stdint : cd_stdint c' = cd_stdint c }.

Lemma single_grown : forall fuel i x x' d c c', nth_error (b_modules b) i = Some x -> nth_error (b_modules b') i = Some x' -> In d (all_defs b) ->
  single fuel (all_defs b) (simple_definition_list b x) note wch d = Ok c ->
  single fuel (all_defs b') (simple_definition_list b' x') note' wch' d = Ok c' ->
  same_piece c c' /\ ((forall n t cm, d = DSimple n t cm -> agree (note n t) (note' n t)) -> c' = c).
Proof.
  intros fuel i x x' d c c' Hx Hx' D H H'. unfold single in *. destruct d as [n cm l|n cm l|n cm l|n t cm]; cbn [convert_definition] in *.
  - assert (E : c' = c).
    { symmetry. revert c c' H H'. apply agree_bind; [|intros y; apply agree_refl]. unfold convert_sequence. apply agree_bind; [|intros y; apply agree_refl].
      apply (members_grown fuel i x x' _ Hx Hx' D). intros k K. exact K. }
    rewrite E. split; [split|]; reflexivity.
  - assert (E : c' = c) by congruence. rewrite E. split; [split|]; reflexivity.
  - assert (E : c' = c) by congruence. rewrite E. split; [split|]; reflexivity.
  - apply bind_ok in H as (s & S & H), H' as (s' & S' & H'). split.
    + injection H as <-. injection H' as <-. destruct s, s'; split; reflexivity.
    + intros A. rewrite (A n t cm eq_refl _ _ S S') in H. congruence.
Qed.
End Note.

Section One.
Variables (i : nat) (bm bm' : bmodule) (m m' : module).
Hypothesis Hi : nth_error (b_modules b) i = Some bm.
Hypothesis Hi' : nth_error (b_modules b') i = Some bm'.
Hypothesis Pm : parse_module m = Ok (bm_mod bm).
Hypothesis Pm' : parse_module m' = Ok (bm_mod bm').
Hypothesis Rm : grown m m'.

Lemma module_grown : grown (bm_mod bm) (bm_mod bm').
Proof. eapply parse_grown; eassumption. Qed.

Lemma old_in : forall d, In d (mod_defs (bm_mod bm)) -> In d (all_defs b).
Proof. intros d D. apply in_all_defs. exists bm. split; [eapply nth_error_In; exact Hi|exact D]. Qed.

Lemma sorted_grown : forall fuel so', sorted_definitions fuel (bm_mod bm') = Ok so' -> sorted_definitions fuel (bm_mod bm) = Ok (filter (keep fresh) so').
Proof.
  intros fuel so' H. unfold sorted_definitions in *. rewrite (defs_filtered _ _ _ Hi Hi').
  replace (initially_defined (bm_mod bm)) with (initially_defined (bm_mod bm')) by (unfold initially_defined; rewrite (gr_imports _ _ module_grown); reflexivity).
  apply (loop_keeps fresh fuel (mod_defs (bm_mod bm')) []) with (defined' := initially_defined (bm_mod bm')); [|intros n _; reflexivity|exact H].
  intros d k D Kd K. eapply members_old; [|exact K]. apply old_in. rewrite (defs_filtered _ _ _ Hi Hi'). apply filter_In. auto.
Qed.

Lemma cdata_grown : forall fuel inc note note' wch wch' c c', (forall n k, agree (wch n k) (wch' n k)) ->
  module_cdata fuel b bm inc note wch = Ok c -> module_cdata fuel b' bm' inc note' wch' = Ok c' ->
  exists pc pc' l l' hc, listed_alike m m' l l'
    /\ (forall d, In d l -> same_piece (pc d) (pc' d) /\ ((forall n t cm, d = DSimple n t cm -> agree (note n t) (note' n t)) -> pc' d = pc d))
    /\ pieced pc l (mkcdata [] [] (initial_includes inc (bm_mod bm)) [] [] "" false false hc []) c
    /\ pieced pc' l' (mkcdata [] [] (initial_includes inc (bm_mod bm)) [] [] "" false false hc []) c'.
Proof.
  intros fuel inc note note' wch wch' c c' W H H'. unfold module_cdata in *. apply bind_ok in H as (so & S & H), H' as (so' & S' & H').
  apply bind_ok in H as (x & X & H), H' as (x' & X' & H').
  assert (P := sorted_perm _ _ _ S). assert (P' := sorted_perm _ _ _ S'). rewrite (parsed_defs _ _ Pm') in P'.
  rewrite (sorted_grown _ _ S') in S. injection S as <-.
  destruct (Permutation_map_inv _ _ P') as (l' & -> & Q').
  rewrite filter_mapped in X, P. set (l := filter (fun d => keep fresh (parsed d)) l') in *.
  assert (Q : Permutation (mod_defs m) l).
  { assert (E : filter (fun d => keep fresh (parsed d)) (mod_defs m') = mod_defs m).
    { assert (N := unique'). assert (U : NoDup (map def_name (mod_defs m'))).
      { unfold all_defs, all_modules in N. apply nth_error_split in Hi' as (l1 & l2 & E & _). rewrite E in N.
        rewrite map_app, flat_map_app, map_app in N. cbn [map flat_map] in N. rewrite map_app in N. apply NoDup_app_iff in N as (_ & N & _).
        apply NoDup_app_iff in N as (N & _). rewrite (parsed_defs _ _ Pm'), map_map in N. erewrite map_ext; [exact N|]. intros d. cbn. symmetry. apply name_parsed. }
      apply (kept _ def_name); [apply Rm|exact U| |].
      - intros d D. unfold keep. rewrite fresh_no; [reflexivity|]. apply in_map, old_in. rewrite (parsed_defs _ _ Pm). apply in_map, D.
      - intros d D Kd. assert (D2 : In (parsed d) (mod_defs (bm_mod bm))).
        { rewrite (defs_filtered _ _ _ Hi Hi'). apply filter_In. split; [rewrite (parsed_defs _ _ Pm'); apply in_map, D|exact Kd]. }
        rewrite (parsed_defs _ _ Pm) in D2. apply in_map_iff in D2 as (y & Ey & Y). rewrite <- (name_parsed d), <- Ey, name_parsed. apply in_map, Y. }
    rewrite <- E. apply permuted_filter, Q'. }
  apply convert_all in X as (O & K), X' as (O' & K'). apply pieced_map in K, K'.
  assert (Inc : initial_includes inc (bm_mod bm') = initial_includes inc (bm_mod bm)).
  { destruct module_grown as [_ _ E1 E2 _]. unfold initial_includes. rewrite E1, E2. reflexivity. }
  rewrite Inc in K'.
  assert (Cm : mod_comment (bm_mod bm') = mod_comment (bm_mod bm)) by apply module_grown. rewrite Cm in H'.
  exists (fun d => piece fuel (all_defs b) (simple_definition_list b bm) note wch (parsed d)),
    (fun d => piece fuel (all_defs b') (simple_definition_list b' bm') note' wch' (parsed d)), l, l', (cd_header_comment c).
  split; [split; [exact Q|split; [exact Q'|apply inserted_filter]]|]. split.
  { intros d D. rewrite Forall_forall in O, O'. destruct (O (parsed d)) as (y & Y); [apply in_map, D|].
    destruct (O' (parsed d)) as (y' & Y'); [apply in_map; unfold l in D; apply filter_In in D; apply D|].
    unfold piece. rewrite Y, Y'.
    destruct (single_grown note note' wch wch' W fuel i bm bm' (parsed d) y y' Hi Hi') as (Sp & Same); try assumption.
    { apply old_in. rewrite (parsed_defs _ _ Pm). apply in_map. eapply Permutation_in; [apply Permutation_sym; exact Q|exact D]. }
    split; [exact Sp|]. intros A. apply Same. intros n t cm E. exact (A n t cm (proj1 (simple_parsed _ _ _ _) E)). }
  injection H as <-. injection H' as <-.
  destruct K as [K1 K2 K3 K4 K5 K6 K7 K8], K' as [L1 L2 L3 L4 L5 L6 L7 L8]. cbn in K8, L8.
  destruct (mod_comment (bm_mod bm)) as [cm|]; [destruct (String.eqb (cm_text cm) "")|]; split; split; cbn; try assumption; congruence.
Qed.
End One.
End Configs.

(** ** The text *)

Lemma parts_same : forall f g l, (forall d, In d l -> f d = g d) -> parts f l = parts g l.
Proof. intros f g l H. unfold parts. f_equal. apply map_ext_in, H. Qed.
Lemma maybe_block : forall A (f : A -> string) X,
  ((if is_nil X then "" else concat_map_str f X ++ NL) = concat_map_str f X ++ (if is_nil X then "" else NL))%string.
Proof. intros A f [|x X]; reflexivity. Qed.
Lemma more_pieces : forall A (f f' : definition -> list A) l l', inserted l l' -> (forall d, In d l -> f' d = f d) ->
  is_nil (flat_map f' l') = is_nil (flat_map f l) \/ is_nil (flat_map f l) = true /\ is_nil (flat_map f' l') = false.
Proof.
  intros A f f' l l' H. induction H as [|x l l' H IH|x l l' H IH]; intros E; [left; reflexivity| |]; cbn [flat_map].
  - rewrite (E x (or_introl eq_refl)). destruct (f x); [|left; reflexivity]. apply IH. intros d D. apply E. right. exact D.
  - destruct (f' x); [exact (IH E)|]. destruct (is_nil (flat_map f l)); auto.
Qed.
Lemma more_flags : forall (f f' : definition -> bool) l l', inserted l l' -> (forall d, In d l -> f' d = f d) -> existsb f l = true -> existsb f' l' = true.
Proof.
  intros f f' l l' H E X. apply existsb_exists in X as (d & D & X). apply existsb_exists. exists d. split; [exact (inserted_incl _ _ _ H d D)|].
  rewrite (E d D). exact X.
Qed.

Section Text.
Variables (m m' : module) (pc pc' : definition -> cdata) (l l' : list definition) (inc : list cinclude) (hc : string) (c c' : cdata).
Variable stays : definition -> Prop.
Hypothesis La : listed_alike m m' l l'.
Hypothesis Sp : forall d, In d l -> same_piece (pc d) (pc' d).
Hypothesis St : forall d, In d l -> stays d -> pc' d = pc d.
Hypothesis K : pieced pc l (mkcdata [] [] inc [] [] "" false false hc []) c.
Hypothesis K' : pieced pc' l' (mkcdata [] [] inc [] [] "" false false hc []) c'.

Lemma header_extended : forall fn h, extended_header stays m m' (render_header c fn h) (render_header c' fn h).
Proof.
  intros fn h. destruct K as [K1 K2 K3 K4 K5 K6 K7 K8], K' as [L1 L2 L3 L4 L5 L6 L7 L8]. cbn in K1, K2, K3, K4, K5, K6, K7, K8, L1, L2, L3, L4, L5, L6, L7, L8.
  unfold render_header. rewrite !maybe_block. rewrite K1, K2, K3, K5, K6, K7, K8, L1, L2, L3, L5, L6, L7, L8.
  assert (J := proj2 (proj2 La)).
  assert (M1 := more_pieces _ (fun d => cd_defines (pc d)) (fun d => cd_defines (pc' d)) l l' J (fun d D => sp_defines _ _ (Sp d D))).
  assert (M2 := more_pieces _ (fun d => cd_predefs (pc d)) (fun d => cd_predefs (pc' d)) l l' J (fun d D => sp_predefs _ _ (Sp d D))).
  assert (Fb := more_flags (fun d => cd_stdbool (pc d)) (fun d => cd_stdbool (pc' d)) l l' J (fun d D => sp_stdbool _ _ (Sp d D))).
  assert (Fi := more_flags (fun d => cd_stdint (pc d)) (fun d => cd_stdint (pc' d)) l l' J (fun d D => sp_stdint _ _ (Sp d D))).
  rewrite !concat_str_app, !concat_parts.
  rewrite (parts_same (fun d => concat_map_str _ (cd_defines (pc d))) (fun d => concat_map_str (fun d => render_define d ++ NL)%string (cd_defines (pc' d))) l)
    by (intros d D; rewrite (sp_defines _ _ (Sp d D)); reflexivity).
  rewrite (parts_same (fun d => concat_map_str _ (cd_data (pc d))) (fun d => concat_map_str (fun d => render_decl d ++ NL ++ NL)%string (cd_data (pc' d))) l)
    by (intros d D; rewrite (sp_data _ _ (Sp d D)); reflexivity).
  rewrite (parts_same (fun d => concat_map_str _ (cd_predefs (pc d))) (fun d => concat_map_str (fun p => p ++ NL)%string (cd_predefs (pc' d))) l)
    by (intros d D; rewrite (sp_predefs _ _ (Sp d D)); reflexivity).
  destruct (is_msgids h) eqn:Eh.
  - assert (Es : is_stored_data h = false) by (destruct h; try discriminate; reflexivity). rewrite Es.
    exists ((guard_open fn ++ NL) ++ file_header "" ++ NL)%string, "", "", (guard_close fn),
      (if is_nil (flat_map (fun d => cd_defines (pc d)) l) then "" else NL), (if is_nil (flat_map (fun d => cd_defines (pc' d)) l') then "" else NL),
      false, false, false, false, (fun _ => ""), (fun _ => ""),
      (fun d => concat_map_str (fun d => render_define d ++ NL)%string (cd_defines (pc' d))), (fun _ => ""), l, l'.
    split; [exact La|]. split; [auto|]. split; [auto|]. split; [destruct M1 as [->|(-> & ->)]; auto|]. split; [reflexivity|].
    rewrite !parts_none. unfold standard_lines. cbn [append]. rewrite ?string_app_assoc. split; reflexivity.
  - exists ((guard_open fn ++ NL) ++ file_header hc ++ NL)%string, (concat_map_str (fun i => render_include i ++ NL)%string inc), NL, (guard_close fn),
      (if is_stored_data h then if is_nil (flat_map (fun d => cd_predefs (pc d)) l) then "" else NL else ""),
      (if is_stored_data h then if is_nil (flat_map (fun d => cd_predefs (pc' d)) l') then "" else NL else ""),
      (existsb (fun d => cd_stdbool (pc d)) l), (existsb (fun d => cd_stdint (pc d)) l),
      (existsb (fun d => cd_stdbool (pc' d)) l'), (existsb (fun d => cd_stdint (pc' d)) l'),
      (fun d => concat_map_str (fun i => render_include i ++ NL)%string (cd_includes (pc d))),
      (fun d => concat_map_str (fun i => render_include i ++ NL)%string (cd_includes (pc' d))),
      (fun d => concat_map_str (fun d => render_decl d ++ NL ++ NL)%string (cd_data (pc' d))),
      (fun d => if is_stored_data h then concat_map_str (fun p => p ++ NL)%string (cd_predefs (pc' d)) else ""), l, l'.
    split; [exact La|]. split; [exact Fb|]. split; [exact Fi|]. split; [destruct (is_stored_data h); [destruct M2 as [->|(-> & ->)]|]; auto|].
    split; [intros d D Sd; rewrite (St d D Sd); reflexivity|].
    unfold standard_lines. destruct (is_stored_data h); rewrite ?parts_none; cbn [append]; rewrite ?string_app_assoc; split; reflexivity.
Qed.

Lemma source_extended : (forall x, x = c \/ x = c' -> cd_init_include x = "" \/ exists n, cd_init_include x = quoted_include n) ->
  extended_source m m' (render_source c) (render_source c').
Proof.
  intros I. unfold render_source. destruct K as [K1 K2 K3 K4 K5 K6 K7 K8], K' as [L1 L2 L3 L4 L5 L6 L7 L8]. cbn in K4, K8, L4, L8.
  rewrite K4, K8, L4, L8.
  assert (T : forall p l, String.concat "" (flat_map (fun d => cd_inits (p d)) l) = parts (fun d => concat_map_str (fun x => x) (cd_inits (p d))) l).
  { intros p k. rewrite <- concat_parts. unfold concat_map_str. rewrite map_id. reflexivity. }
  rewrite !T. rewrite (parts_same (fun d => concat_map_str (fun x => x) (cd_inits (pc d))) (fun d => concat_map_str (fun x => x) (cd_inits (pc' d))) l)
    by (intros d D; rewrite (sp_inits _ _ (Sp d D)); reflexivity).
  exists (file_header hc ++ NL)%string, (if String.eqb (cd_init_include c) "" then "" else cd_init_include c ++ NL ++ NL)%string,
    (if String.eqb (cd_init_include c') "" then "" else cd_init_include c' ++ NL ++ NL)%string,
    (fun d => concat_map_str (fun x => x) (cd_inits (pc' d))), l, l'.
  split; [exact La|].
  assert (M : forall x, x = c \/ x = c' -> maybe_include (if String.eqb (cd_init_include x) "" then "" else cd_init_include x ++ NL ++ NL)%string).
  { intros x X. destruct (I x X) as [->|(n & ->)]; [left; reflexivity|]. right. exists n.
    change (String.eqb (quoted_include n) "") with false. cbv iota. unfold quoted_include. rewrite <- !string_app_assoc. reflexivity. }
  split; [apply M; auto|]. split; [apply M; auto|]. rewrite <- !string_app_assoc. split; reflexivity.
Qed.
End Text.

(** ** The images *)

Lemma clause_bytes_more : forall e s s', (forall n x, dict_get n s = Some x -> dict_get n s' = Some x) -> forall w t bs,
  clause_bytes e s t w = Ok bs -> clause_bytes e s' t w = Ok bs.
Proof.
  intros e s s' H. induction w as [c l IH] using clause_ind. intros t. rewrite !clause_bytes_eq.
  induction l as [|i l IHl]; [auto|]. intros bs E. cbn [items_bytes] in *. apply bind_ok in E as (x & X & E). apply bind_ok in E as (y & Y & E).
  rewrite (IHl (fun k w cm J => IH k w cm (or_intror J)) _ Y).
  assert (Q : item_bytes e s' t i = Ok x); [|rewrite Q; exact E]. clear E Y IHl.
  destruct i as [k v cm]. cbn [item_bytes] in *. destruct (dict_get t s) as [d|] eqn:D; [|discriminate]. rewrite (H _ _ D). destruct (dict_get k d) as [sp|]; [|discriminate].
  destruct v as [z|f|b|w]; try exact X. apply (IH k w cm (or_introl eq_refl)). exact X.
Qed.

Lemma Forall2_in_left : forall A B (Q : A -> B -> Prop) l r x, Forall2 Q l r -> In x l -> exists y, In y r /\ Q x y.
Proof. intros A B Q l r x F. induction F as [|a b l r H F IH]; intros []; [subst; exists b; split; [left; reflexivity|exact H]|]. destruct (IH H0) as (y & Y & Z). exists y. split; [right|]; assumption. Qed.
Lemma Forall2_in_right : forall A B (Q : A -> B -> Prop) l r y, Forall2 Q l r -> In y r -> exists x, In x l /\ Q x y.
Proof. intros A B Q l r x F. induction F as [|a b l r H F IH]; intros []; [subst; exists a; split; [left; reflexivity|exact H]|]. destruct (IH H0) as (y & Y & Z). exists y. split; [right|]; assumption. Qed.

Section Images.
Variables (names : list string) (input input' : list module) (b b' : bundle) (e : option endianness) (fuel : nat).
Hypothesis C : config names input b.
Hypothesis C' : config names input' b'.
Hypothesis R : Forall2 grown input input'.
Variables (i : nat) (bm bm' : bmodule) (m m' : module).
Hypothesis Hi : nth_error (b_modules b) i = Some bm.
Hypothesis Hi' : nth_error (b_modules b') i = Some bm'.
Hypothesis Pm : parse_module m = Ok (bm_mod bm).
Hypothesis Pm' : parse_module m' = Ok (bm_mod bm').
Hypothesis Rm : grown m m'.

Lemma images_agree : forall n k, agree (bin_with_components fuel e (all_defs b) (bm_mod bm) n k) (bin_with_components fuel e (all_defs b') (bm_mod bm') n k).
Proof.
  intros n k c c' H H'. unfold bin_with_components in *. destruct (m_with k) as [w|]; [|congruence].
  apply bind_ok in H as (s & S & H), H' as (s' & S' & H'). apply sequence_specs_all in S, S'.
  assert (Nd : NoDup (map fst s')).
  { replace (map fst s') with (map fst (sequences_in (mod_defs (bm_mod bm')))); [apply sequences_names, (module_unique names input' b' C' i bm' Hi')|]. clear - S'.
    induction S' as [|x y l l' (E & _) F IH]; [reflexivity|]. cbn [map]. rewrite E, IH. reflexivity. }
  assert (D : forall x y, dict_get x s = Some y -> dict_get x s' = Some y).
  { intros x y D. apply dict_get_In in D. destruct (Forall2_in_right _ _ _ _ _ _ S D) as ((x0 & ms) & X & E & Q). cbn [fst snd] in E, Q. subst x0.
    apply in_flat_map in X as (d & Dd & X). destruct d as [n0 c0 l0|n0 c0 l0|n0 c0 l0|n0 t0 c0]; try (destruct X; fail). destruct X as [X|[]]. injection X as -> ->.
    assert (Dd' := inserted_incl _ _ _ (gr_defs _ _ (module_grown bm bm' m m' Pm Pm' Rm)) _ Dd).
    assert (X' : In (x, ms) (sequences_in (mod_defs (bm_mod bm')))) by (apply in_flat_map; exists (DSequence x c0 ms); split; [exact Dd'|left; reflexivity]).
    destruct (Forall2_in_left _ _ _ _ _ _ S' X') as ((x1 & y1) & Y1 & E1 & Q1). cbn [fst snd] in E1, Q1. subst x1.
    assert (Z : member_specs fuel (all_defs b) ms = member_specs fuel (all_defs b') ms).
    { apply (member_specs_cong _ _ (fun n => fresh b b' n = false) (lookup_grown names input input' b b' C C' R) (lookup_closed names input input' b b' C C')).
      intros k0 K0. apply (members_old names input input' b b' C C' (DSequence x c0 ms)); [|exact K0]. apply in_all_defs. exists bm. split; [eapply nth_error_In; exact Hi|exact Dd]. }
    assert (y1 = y) as -> by congruence. apply dict_get_NoDup; assumption. }
  apply bind_ok in H as (bs & B & H), H' as (bs' & B' & H'). apply (clause_bytes_more e s s' D) in B. congruence.
Qed.

Lemma binary_included : forall c c', bin_cdata fuel e b bm = Ok c -> bin_cdata fuel e b' bm' = Ok c' -> incl (cd_binary c) (cd_binary c').
Proof.
  intros c c' H H'. destruct (binary_flat e _ _ _ _ _ _ _ C Hi H) as (so & css & P & F & -> & _).
  destruct (binary_flat e _ _ _ _ _ _ _ C' Hi' H') as (so' & css' & P' & F' & -> & _).
  intros x X. apply in_flat_map in X as (cs & Cs & X). apply in_flat_map.
  destruct (Forall2_in_right _ _ _ _ _ _ F Cs) as (d & D & Hd).
  assert (D' : In d so').
  { apply (Permutation_in _ (Permutation_sym P')), (inserted_incl _ _ _ (gr_defs _ _ (module_grown bm bm' m m' Pm Pm' Rm))), (Permutation_in _ P), D. }
  destruct (Forall2_in_left _ _ _ _ _ _ F' D') as (cs' & Cs' & Hd'). exists cs'. split; [exact Cs'|].
  rewrite <- (handled_agree _ _ _ _ _ images_agree Hd Hd'). exact X.
Qed.
End Images.

(** ** Whole runs *)

Lemma file_of_grown : forall cmd m m' f, grown m m' -> file_of cmd m f -> file_of cmd m' f.
Proof.
  intros cmd m m' f S. unfold file_of. rewrite (gr_name _ _ S). destruct cmd; auto. intros [E|(n & c & l & k & D & Q)]; [left; exact E|right].
  exists n, c, l, k. split; [exact (inserted_incl _ _ _ (gr_defs _ _ S) _ D)|exact Q].
Qed.

Lemma contents_grown : forall names cmd input input' b b' fuel i bm bm' m m' fl fl' f t t', config_command names cmd ->
  config names input b -> config names input' b' -> Forall2 grown input input' ->
  nth_error (b_modules b) i = Some bm -> nth_error (b_modules b') i = Some bm' ->
  parse_module m = Ok (bm_mod bm) -> parse_module m' = Ok (bm_mod bm') -> grown m m' ->
  module_files fuel cmd b bm = Ok fl -> module_files fuel cmd b' bm' = Ok fl' -> (forall x y y', In (x, y) fl' -> In (x, y') fl' -> y = y') ->
  In (f, t) fl -> In (f, t') fl' -> extended_contents (note_stays cmd input input') m m' f t t'.
Proof.
  intros names cmd input input' b b' fuel i bm bm' m m' fl fl' f t t' Hc C C' R Hi Hi' Pm Pm' Rm H H' N' I I'.
  assert (En : bm_name bm' = bm_name bm) by exact (gr_name _ _ (module_grown bm bm' m m' Pm Pm' Rm)).
  destruct Hc as [->|[->|(e & ->)]]; cbn [module_files] in H, H'.
  - unfold cfs_module in *. apply bind_ok in H as (c & H & E), H' as (c' & H' & E').
    unfold cfs_cdata in *. destruct (cdata_grown names input input' b b' C C' R i bm bm' m m' Hi Hi' Pm Pm' Rm fuel _ _ _ _ _ c c' (fun n k => agree_refl _ _) H H')
      as (pc & pc' & l & l' & hc & La & Sp & K & K').
    assert (St : forall d, In d l -> note_stays (GenerateCfs names) input input' d -> pc' d = pc d).
    { intros d D S. apply (proj2 (Sp d D)). intros n t0 cm ->. cbn [note_stays] in S. rewrite (note_grown names input input' b b' C C' R n t0 S). apply agree_refl. }
    assert (Sp' : forall d, In d l -> same_piece (pc d) (pc' d)) by (intros d D; apply (Sp d D)).
    rewrite En in E'. injection E as <-. injection E' as <-. cbn [print_to_file is_stored_data is_binary app] in *.
    destruct I as [I|[I|[]]]; injection I as <- <-.
    + eapply N' in I'; [|left; reflexivity]. subst t'. apply extended_h. eapply header_extended; eassumption.
    + eapply N' in I'; [|right; left; reflexivity]. subst t'. apply extended_h. eapply header_extended; eassumption.
  - unfold c_module in *. apply bind_ok in H as (c & H & E), H' as (c' & H' & E').
    unfold c_cdata in *. rewrite En in H', E'.
    destruct (cdata_grown names input input' b b' C C' R i bm bm' m m' Hi Hi' Pm Pm' Rm fuel _ _ _ _ _ c c' (fun n k => agree_refl _ _) H H')
      as (pc & pc' & l & l' & hc & La & Sp & K & K').
    assert (St : forall d, In d l -> note_stays (GenerateC names) input input' d -> pc' d = pc d) by (intros d D _; apply (proj2 (Sp d D)); intros; apply agree_refl).
    assert (Sp' : forall d, In d l -> same_piece (pc d) (pc' d)) by (intros d D; apply (Sp d D)).
    injection E as <-. injection E' as <-. cbn [print_to_file is_stored_data is_binary app] in *.
    destruct I as [I|[I|[]]]; injection I as <- <-.
    + eapply N' in I'; [|left; reflexivity]. subst t'. apply extended_h. eapply header_extended; eassumption.
    + eapply N' in I'; [|right; left; reflexivity]. subst t'. apply extended_c. eapply source_extended; try eassumption.
      assert (Inc : forall bu x c0, module_cdata fuel bu x c_filename c_note (c_with_components (bm_name bm)) = Ok c0 ->
        cd_init_include c0 = "" \/ exists n, cd_init_include c0 = quoted_include n).
      { intros bu x c0 Q. unfold module_cdata in Q. apply bind_ok in Q as (so & _ & Q). apply bind_ok in Q as (c1 & Q1 & Q).
        eapply (definitions_include _ _ _ _ _ (fun s => s = "" \/ exists n, s = quoted_include n)) in Q1; [| | |].
        - injection Q as <-. destruct (mod_comment (bm_mod x)) as [cm|]; [destruct (String.eqb (cm_text cm) "")|]; exact Q1.
        - left. reflexivity.
        - intros n k c2 Q2. unfold c_with_components in Q2. destruct (m_with k); injection Q2 as <-; [right; eexists; reflexivity|left; reflexivity].
        - left. reflexivity. }
      intros x [->| ->]; eapply Inc; eassumption.
  - unfold bin_module in *. apply bind_ok in H as (c & H & E), H' as (c' & H' & E').
    assert (BP := binary_included names input input' b b' e fuel C C' R i bm bm' m m' Hi Hi' Pm Pm' Rm c c' H H'). unfold bin_cdata in *.
    assert (Aw := images_agree names input input' b b' e fuel C C' R i bm bm' m m' Hi Hi' Pm Pm' Rm).
    destruct (cdata_grown names input input' b b' C C' R i bm bm' m m' Hi Hi' Pm Pm' Rm fuel _ _ _ _ _ c c' Aw H H')
      as (pc & pc' & l & l' & hc & La & Sp & K & K').
    assert (St : forall d, In d l -> note_stays (GenerateBinary names e) input input' d -> pc' d = pc d) by (intros d D _; apply (proj2 (Sp d D)); intros; apply agree_refl).
    assert (Sp' : forall d, In d l -> same_piece (pc d) (pc' d)) by (intros d D; apply (Sp d D)).
    rewrite En in E'. injection E as <-. injection E' as <-. cbn [print_to_file is_stored_data is_binary app] in *.
    destruct I as [I|I].
    + injection I as <- <-. eapply N' in I'; [|left; reflexivity]. subst t'. apply extended_h. eapply header_extended; eassumption.
    + assert (J := I). apply in_map_iff in J as ((k & v) & Q & J). cbn [fst snd] in Q. injection Q as <- <-.
      assert (J' : In (k, v) (cd_binary c')) by (apply BP; assumption).
      assert (J2 : In ((k ++ ".bin")%string, string_of_bytes (concat v)) (((bin_filename (bm_name bm) ++ ".h")%string, render_header c' (bin_filename (bm_name bm) ++ ".h") STORED_DATA_BINARY)
         :: map (fun kv => ((fst kv ++ ".bin")%string, string_of_bytes (concat (snd kv)))) (cd_binary c'))).
      { right. apply in_map_iff. exists (k, v). split; [reflexivity|exact J']. }
      rewrite (N' _ _ _ J2 I'). apply extended_bin.
Qed.

Theorem definitions_added : forall names cmd input input' fuel' fs fs2, config_command names cmd ->
  Forall (fun m => grammatical m = true) input -> Forall (fun m => grammatical m = true) input' ->
  Forall2 grown input input' -> bundle_valid names input -> run fuel' cmd input' fs = (fs2, Ok tt) ->
  exists F, forall fuel, (F <= fuel)%nat -> exists fs1, run fuel cmd input fs = (fs1, Ok tt)
    /\ (forall f, (forall m', In m' input' -> ~ file_of cmd m' f) -> folder_get fs2 f = folder_get fs1 f)
    /\ forall i m m' f, nth_error input i = Some m -> nth_error input' i = Some m' -> file_of cmd m f ->
       exists t t', folder_get fs1 f = Some t /\ folder_get fs2 f = Some t' /\ extended_contents (note_stays cmd input input') m m' f t t'.
Proof.
  intros names cmd input input' fuel0 fs fs2 Hc G G' R V Ru.
  destruct (fewer_definitions_succeed names cmd input input' fuel0 fs Hc G G' R V ltac:(rewrite Ru; reflexivity)) as (F0 & Ok0).
  exists (Nat.max F0 fuel0). intros fuel' L. assert (Ok1 := Ok0 fuel' fs ltac:(lia)).
  destruct (run fuel' cmd input fs) as [fs1 r] eqn:R'. cbn [snd] in Ok1. subst r. exists fs1. split; [reflexivity|].
  assert (U := run_more fuel0 fuel' cmd input' fs ltac:(lia)). rewrite Ru in U. specialize (U ltac:(discriminate)).
  destruct (run_contents _ _ _ _ _ _ Hc G R') as (b & files & C & -> & N & All & X).
  destruct (run_contents _ _ _ _ _ _ Hc G' U) as (b' & files' & C' & -> & N' & All' & X').
  assert (Names : forall nms inp bu fls, config nms inp bu -> Forall (fun m => grammatical m = true) inp -> config_command nms cmd ->
     (forall x, In x fls <-> exists bm fl, In bm (b_modules bu) /\ module_files fuel' cmd bu bm = Ok fl /\ In x fl) ->
     forall f, In f (map fst fls) -> exists m, In m inp /\ file_of cmd m f).
  { intros nms inp bu fls D Gd Hd Y f If. apply in_map_iff in If as ((f0 & t) & <- & If). apply Y in If as (bm & fl & Hbm & Q & If).
    destruct (bmodule_module _ _ _ bm D Hbm) as (m & M & Pm). exists m. split; [exact M|].
    apply (one_files nms inp cmd Gd Hd bu (proj2 D) bm m Hbm (parse_module_same _ _ Pm) fuel' fl Q). apply in_map_iff. exists (f0, t). auto. }
  split.
  - intros f Hf. rewrite !folder_get_all. destruct (dict_get f files') as [t|] eqn:D.
    { apply dict_get_In in D. destruct (Names _ _ _ _ C' G' Hc X' f) as (m & M & Fm); [apply in_map_iff; exists (f, t); auto|]. destruct (Hf m M Fm). }
    destruct (dict_get f files) as [t|] eqn:D'; [|reflexivity].
    apply dict_get_In in D'. destruct (Names _ _ _ _ C G Hc X f) as (m & M & Fm); [apply in_map_iff; exists (f, t); auto|].
    destruct (grown_in _ _ _ R M) as (m' & M' & S). destruct (Hf m' M'). eapply file_of_grown; eassumption.
  - intros i m m' f Hm Hm' Ff. assert (S : grown m m').
    { destruct (grown_nth _ _ _ _ R Hm) as (x & Hx & S). congruence. }
    destruct (config_nth _ _ _ _ _ C Hm) as (bm & Hi & Pm). destruct (config_nth _ _ _ _ _ C' Hm') as (bm' & Hi' & Pm').
    assert (Hb := nth_error_In _ _ Hi). assert (Hb' := nth_error_In _ _ Hi').
    destruct (All bm Hb) as (fl & Q). destruct (All' bm' Hb') as (fl' & Q').
    assert (If : In f (map fst fl)) by (apply (one_files names input cmd G Hc b (proj2 C) bm m Hb (parse_module_same _ _ Pm) fuel' fl Q); exact Ff).
    assert (If' : In f (map fst fl')).
    { apply (one_files names input' cmd G' Hc b' (proj2 C') bm' m' Hb' (parse_module_same _ _ Pm') fuel' fl' Q'). eapply file_of_grown; eassumption. }
    apply in_map_iff in If as ((f1 & t) & E & If), If' as ((f2 & t') & E' & If'). cbn [fst] in E, E'. subst f1 f2.
    exists t, t'. rewrite !folder_get_all.
    assert (J : In (f, t) files) by (apply X; eauto). assert (J' : In (f, t') files') by (apply X'; eauto).
    rewrite (dict_get_NoDup _ f t files N J), (dict_get_NoDup _ f t' files' N' J'). split; [reflexivity|]. split; [reflexivity|].
    assert (Fl : forall fls b0 bm0 fl0, NoDup (map fst fls) -> (forall x, In x fls <-> exists bm fl, In bm (b_modules b0) /\ module_files fuel' cmd b0 bm = Ok fl /\ In x fl) ->
      In bm0 (b_modules b0) -> module_files fuel' cmd b0 bm0 = Ok fl0 -> forall x y y', In (x, y) fl0 -> In (x, y') fl0 -> y = y').
    { intros fls b0 bm0 fl0 Nf Y B0 Q0 x y y' A B. assert (A' : In (x, y) fls) by (apply Y; eauto). assert (B' : In (x, y') fls) by (apply Y; eauto).
      apply (dict_get_NoDup _ _ _ _ Nf) in A', B'. congruence. }
    eapply (contents_grown names cmd input input' b b' fuel' i bm bm' m m' fl fl'); eauto.
Qed.
