(** * Proofs: definitions in another order, the files of cfs, c and binary (C92) *)
From Coq Require Import Permutation Sorted Lia.
From Verif Require Import Base PyNum PyStr Ast Size Processor Bundle Sorter CCommon GenCfs GenC GenBinary GenCosmos Main
  Lib_proofs Str_proofs Spec_Enum Enum_proofs Spec_Num Num_proofs Spec_Check Check_proofs Spec_Grammar Spec_Bundle Bundle_proofs
  Name_proofs Accept_proofs Spec_Gen Gen_proofs Field_proofs Spec_Order Order_proofs Cdata_proofs Run_proofs Note_proofs
  Spec_Files Files_proofs Fuel_proofs Spec_Layout Spec_Cfs Spec_Binary Binary_proofs Spec_Runs Runs_proofs Runs2_proofs Spec_Failures Failures_proofs
  Spec_Inputs Inputs_proofs Spec_Size Spec_Reorder Reorder_proofs.
Open Scope string_scope.
Open Scope list_scope.

(** ** Results that agree where there are two *)

Definition agree {A} (r r' : result A) : Prop := forall x x', r = Ok x -> r' = Ok x' -> x = x'.
Lemma agree_refl : forall A (r : result A), agree r r.
Proof. intros A r x x' E E'. congruence. Qed.
Lemma agree_bind : forall A B (r r' : result A) (f f' : A -> result B),
  agree r r' -> (forall x, agree (f x) (f' x)) -> agree (bind r f) (bind r' f').
Proof.
  intros A B r r' f f' H K x x' E E'. apply bind_ok in E as (y & Y & E), E' as (y' & Y' & E').
  rewrite (H _ _ Y Y') in E. exact (K _ _ _ E E').
Qed.

Lemma perm_image : forall A B (R : A -> B -> Prop) l l' r r', (forall x y y', R x y -> R x y' -> y = y') ->
  Permutation l l' -> Forall2 R l r -> Forall2 R l' r' -> Permutation r r'.
Proof.
  intros A B R l l' r r' D P F F'. destruct (Permutation_Forall2 P F) as (r2 & P2 & F2).
  assert (r2 = r') as <-; [|exact P2]. clear - D F2 F'. revert r' F'. induction F2 as [|x y l r H F IH]; intros r' F'; inversion F'; subst; [reflexivity|].
  f_equal; eauto.
Qed.

Lemma dict_get_permuted : forall A (l l' : list (string * A)) n, Permutation l l' -> NoDup (map fst l) -> dict_get n l = dict_get n l'.
Proof.
  intros A l l' n P N. assert (N' := Permutation_NoDup (Permutation_map fst P) N). destruct (dict_get n l) as [x|] eqn:D.
  - apply dict_get_In in D. symmetry. apply dict_get_NoDup; [exact N'|]. eapply Permutation_in; eassumption.
  - destruct (dict_get n l') as [x|] eqn:D'; [|reflexivity]. apply dict_get_In in D'.
    rewrite (dict_get_NoDup _ n x l N) in D; [discriminate|]. eapply Permutation_in; [apply Permutation_sym; exact P|exact D'].
Qed.

(** ** What each definition adds *)

Section Pieces.
Variables (fuel : nat) (ds : list definition) (sds : list (string * asn_type)).
Variable note : string -> asn_type -> result (option string).
Variable wch : string -> member -> result cdata.

Definition single (d : definition) : result cdata := convert_definition fuel ds sds note wch empty_cdata d.
Definition piece (d : definition) : cdata := match single d with Ok x => x | _ => empty_cdata end.

Record pieced (pc : definition -> cdata) (l : list definition) (acc c : cdata) : Prop :=
  { pd_data : cd_data c = cd_data acc ++ flat_map (fun d => cd_data (pc d)) l;
    pd_defines : cd_defines c = cd_defines acc ++ flat_map (fun d => cd_defines (pc d)) l;
    pd_includes : cd_includes c = cd_includes acc ++ flat_map (fun d => cd_includes (pc d)) l;
    pd_inits : cd_inits c = cd_inits acc ++ flat_map (fun d => cd_inits (pc d)) l;
    pd_predefs : cd_predefs c = cd_predefs acc ++ flat_map (fun d => cd_predefs (pc d)) l;
    pd_stdbool : cd_stdbool c = cd_stdbool acc || existsb (fun d => cd_stdbool (pc d)) l;
    pd_stdint : cd_stdint c = cd_stdint acc || existsb (fun d => cd_stdint (pc d)) l;
    pd_comment : cd_header_comment c = cd_header_comment acc }.

Lemma convert_one : forall acc d c, convert_definition fuel ds sds note wch acc d = Ok c ->
  (exists x, single d = Ok x) /\ pieced piece [d] acc c.
Proof.
  intros acc d c H.
  assert (K : exists x, single d = Ok x /\ pieced (fun _ => x) [d] acc c).
  { unfold single. destruct d as [n cm l|n cm l|n cm l|n t cm]; cbn [convert_definition] in *.
    - apply bind_ok in H as (x & X & H). rewrite X. cbn [bind]. eexists. split; [reflexivity|]. injection H as <-.
      split; cbn; rewrite ?app_nil_r, ?Bool.orb_false_r; reflexivity.
    - injection H as <-. eexists. split; [reflexivity|]. split; cbn; rewrite ?app_nil_r, ?Bool.orb_false_r; reflexivity.
    - injection H as <-. eexists. split; [reflexivity|]. split; cbn; rewrite ?app_nil_r, ?Bool.orb_false_r; reflexivity.
    - apply bind_ok in H as (s & X & H). rewrite X. cbn [bind]. eexists. split; [reflexivity|]. injection H as <-.
      destruct s; split; cbn; rewrite ?app_nil_r, ?Bool.orb_false_r; reflexivity. }
  destruct K as (x & X & P). split; [eauto|]. destruct P. split; cbn [flat_map existsb] in *; unfold piece; rewrite ?X; assumption.
Qed.

Lemma convert_all : forall l acc c, convert_definitions fuel ds sds note wch l acc = Ok c ->
  Forall (fun d => exists x, single d = Ok x) l /\ pieced piece l acc c.
Proof.
  induction l as [|d l IH]; intros acc c H; cbn [convert_definitions] in H.
  - injection H as <-. split; [constructor|]. split; cbn; rewrite ?app_nil_r, ?Bool.orb_false_r; reflexivity.
  - apply bind_ok in H as (a & A & H). apply convert_one in A as (X & P). apply IH in H as (F & Q). split; [constructor; assumption|].
    destruct P as [P1 P2 P3 P4 P5 P6 P7 P8], Q as [Q1 Q2 Q3 Q4 Q5 Q6 Q7 Q8]. cbn [flat_map existsb] in *. rewrite ?app_nil_r, ?Bool.orb_false_r in *.
    split; cbn [flat_map existsb]; rewrite ?app_assoc, ?Bool.orb_assoc; congruence.
Qed.

(** The include line of the .c file. *)
Lemma members_include : forall (Q : string -> Prop) name l fields acc r, (forall n k c, wch n k = Ok c -> Q (cd_init_include c)) ->
  Q (cd_init_include acc) -> convert_members fuel ds sds wch name l fields acc = Ok r -> Q (cd_init_include (snd r)).
Proof.
  intros Q name l. induction l as [|m l IH]; intros fields acc r W A H; cbn [convert_members] in H; [injection H as <-; exact A|].
  apply bind_ok in H as ([[f sb] si] & _ & H). apply bind_ok in H as (a & Ha & H). eapply IH; [exact W| |exact H].
  destruct (m_with m); [|injection Ha as <-; exact A]. apply bind_ok in Ha as (c & C & Ha). injection Ha as <-. exact (W _ _ _ C).
Qed.
Lemma definitions_include : forall (Q : string -> Prop) l acc c, Q "" -> (forall n k c, wch n k = Ok c -> Q (cd_init_include c)) ->
  Q (cd_init_include acc) -> convert_definitions fuel ds sds note wch l acc = Ok c -> Q (cd_init_include c).
Proof.
  intros Q l. induction l as [|d l IH]; intros acc c E W A H; cbn [convert_definitions] in H; [injection H as <-; exact A|].
  apply bind_ok in H as (a & Ha & H). eapply IH; [exact E|exact W| |exact H]. destruct d as [n cm ms|n cm ms|n cm ms|n t cm]; cbn [convert_definition] in Ha.
  - apply bind_ok in Ha as (x & X & Ha). injection Ha as <-. unfold convert_sequence in X. apply bind_ok in X as ([fields y] & Y & X).
    apply bind_ok in X as (u & _ & X). injection X as <-. exact (members_include Q _ _ _ empty_cdata _ W E Y).
  - injection Ha as <-. exact E.
  - injection Ha as <-. exact E.
  - apply bind_ok in Ha as (s & _ & Ha). injection Ha as <-. destruct s; exact A.
Qed.
End Pieces.

(** Two conversions of the same definition. *)
Section Two.
Variables (fuel : nat) (ds ds' : list definition) (sds sds' : list (string * asn_type)).
Variables note note' : string -> asn_type -> result (option string).
Variables wch wch' : string -> member -> result cdata.
Hypothesis L : forall n, lookup_def ds n = lookup_def ds' n.
Hypothesis Sd : forall ct, find (fun sd => String.eqb (c_name (fst sd)) ct) sds = find (fun sd => String.eqb (c_name (fst sd)) ct) sds'.
Hypothesis N : forall n t, agree (note n t) (note' n t).
Hypothesis W : forall n k, agree (wch n k) (wch' n k).

Lemma member_two : forall m, convert_member fuel ds sds m = convert_member fuel ds' sds' m.
Proof.
  intros m. rewrite (convert_member_cong ds ds' (fun _ => True)); auto. unfold convert_member.
  destruct (map_member fuel ds' (m_type m)) as [cm|e|]; try reflexivity. cbn [bind]. rewrite Sd. reflexivity.
Qed.

Lemma members_two : forall name l fields acc,
  agree (convert_members fuel ds sds wch name l fields acc) (convert_members fuel ds' sds' wch' name l fields acc).
Proof.
  intros name. induction l as [|m l IH]; intros fields acc; cbn [convert_members]; [apply agree_refl|]. rewrite member_two.
  apply agree_bind; [apply agree_refl|]. intros [[f sb] si]. apply agree_bind; [|intros a; apply IH].
  destruct (m_with m); [|apply agree_refl]. apply agree_bind; [apply W|]. intros c. apply agree_refl.
Qed.

Lemma single_two : forall d, agree (single fuel ds sds note wch d) (single fuel ds' sds' note' wch' d).
Proof.
  intros [n c l|n c l|n c l|n t c]; unfold single; cbn [convert_definition]; try apply agree_refl.
  - apply agree_bind; [|intros x; apply agree_refl]. unfold convert_sequence. apply agree_bind; [apply members_two|]. intros x. apply agree_refl.
  - apply agree_bind; [apply N|]. intros x. apply agree_refl.
Qed.
End Two.

(** ** Clauses as bytes *)

Definition sequences_in (l : list definition) : list (string * list member) :=
  flat_map (fun d => match d with DSequence n _ ms => [(n, ms)] | _ => [] end) l.

Lemma sequence_specs_all : forall fuel ds l s, sequence_specs fuel ds l = Ok s ->
  Forall2 (fun x y => fst x = fst y /\ member_specs fuel ds (snd x) = Ok (snd y)) (sequences_in l) s.
Proof.
  intros fuel ds. induction l as [|d l IH]; intros s H; cbn [sequence_specs] in H; [injection H as <-; constructor|].
  destruct d as [n c ms|n c ms|n c ms|n t c]; cbn [sequences_in flat_map app]; try (apply IH; exact H).
  apply bind_ok in H as (x & X & H). apply bind_ok in H as (r & Q & H). injection H as <-. constructor; [split; [reflexivity|exact X]|apply IH; exact Q].
Qed.

Lemma sequences_names : forall l, NoDup (map def_name l) -> NoDup (map fst (sequences_in l)).
Proof.
  induction l as [|d l IH]; intros N; [constructor|]. inversion N as [|? ? A B]; subst.
  assert (I : incl (map fst (sequences_in l)) (map def_name l)).
  { intros x X. apply in_map_iff in X as ((n & ms) & <- & X). apply in_flat_map in X as (y & Y & X). destruct y as [n0 c0 l0|n0 c0 l0|n0 c0 l0|n0 t0 c0]; try (destruct X; fail); destruct X as [X|[]].
    injection X as <- <-. apply in_map_iff. eexists; split; [|exact Y]. reflexivity. }
  destruct d as [n c ms|n c ms|n c ms|n t c]; cbn [sequences_in flat_map app]; try (apply IH; exact B).
  cbn [map fst]. constructor; [|apply IH; exact B]. intros H. apply A. exact (I _ H).
Qed.

Lemma clause_bytes_cong : forall e s s', (forall n, dict_get n s = dict_get n s') -> forall w t, clause_bytes e s t w = clause_bytes e s' t w.
Proof.
  intros e s s' H. induction w as [c l IH] using clause_ind. intros t. rewrite !clause_bytes_eq.
  induction l as [|i l IHl]; [reflexivity|]. cbn [items_bytes]. rewrite IHl by (intros k w cm J; apply (IH k w cm); right; exact J).
  assert (E : item_bytes e s t i = item_bytes e s' t i); [|rewrite E; reflexivity].
  destruct i as [k v cm]. cbn [item_bytes]. rewrite H. destruct (dict_get t s') as [d|]; [|reflexivity]. destruct (dict_get k d) as [sp|]; [|reflexivity].
  destruct v as [z|f|b|w]; try reflexivity. apply (IH k w cm). left. reflexivity.
Qed.

Lemma bin_two : forall fuel e ds ds' m m' n k, (forall n, lookup_def ds n = lookup_def ds' n) -> Permutation (mod_defs m) (mod_defs m') ->
  NoDup (map def_name (mod_defs m)) ->
  agree (bin_with_components fuel e ds m n k) (bin_with_components fuel e ds' m' n k).
Proof.
  intros fuel e ds ds' m m' n k L P N c c' H H'. unfold bin_with_components in *. destruct (m_with k) as [w|]; [|congruence].
  apply bind_ok in H as (s & S & H), H' as (s' & S' & H').
  rewrite (sequence_specs_cong ds ds' (fun _ => True)) in S by auto.
  assert (F := sequence_specs_all _ _ _ _ S). assert (F' := sequence_specs_all _ _ _ _ S').
  assert (Q : Permutation s s').
  { eapply (perm_image _ _ _ (sequences_in (mod_defs m)) (sequences_in (mod_defs m'))); [|apply Permutation_flat_map; exact P|exact F|exact F'].
    intros [a b] [a1 b1] [a2 b2] (E & G) (E' & G'). cbn [fst snd] in *. congruence. }
  assert (Nd : NoDup (map fst s)).
  { replace (map fst s) with (map fst (sequences_in (mod_defs m))); [apply sequences_names, N|]. clear - F.
    induction F as [|x y l l' (E & _) F IH]; [reflexivity|]. cbn [map]. rewrite E, IH. reflexivity. }
  rewrite (clause_bytes_cong e s s') in H by (intros x; apply dict_get_permuted; assumption).
  apply bind_ok in H as (bs & B & H), H' as (bs' & B' & H'). congruence.
Qed.

(** ** Two bundles *)

Section Bundles.
Variables ms ms' : list module.
Hypothesis F : Forall2 reordered ms ms'.

Lemma last_index_reordered : forall n, last_index n ms = last_index n ms'.
Proof.
  intros n. unfold last_index. generalize 0%nat. induction F as [|m m' l l' S F' IH]; intros i; [reflexivity|]. cbn [last_index_from].
  rewrite IH by exact F'. rewrite (re_name _ _ S). reflexivity.
Qed.
Lemma imported_reordered : forall i m m', reordered m m' -> imported_of ms i m = imported_of ms' i m'.
Proof.
  intros i m m' S. unfold imported_of. rewrite <- last_index_reordered, (re_name _ _ S). destruct (last_index (mod_name m) ms) as [j|]; [|reflexivity].
  destruct (Nat.eqb i j); [|reflexivity]. unfold dependencies. rewrite (re_imports _ _ S). apply flat_map_ext. intros x. rewrite last_index_reordered. reflexivity.
Qed.

Variables b b' : bundle.
Hypothesis B : build ms = Ok b.
Hypothesis B' : build ms' = Ok b'.
Lemma bmodule_reordered : forall i bm, nth_error (b_modules b) i = Some bm ->
  exists bm', nth_error (b_modules b') i = Some bm' /\ reordered (bm_mod bm) (bm_mod bm') /\ bm_imported bm' = bm_imported bm.
Proof.
  intros i bm H. rewrite (build_nth _ _ _ B) in H. destruct (nth_error ms i) as [m|] eqn:M; [|discriminate]. injection H as <-.
  destruct (reordered_nth _ _ _ _ F M) as (m' & M' & S). rewrite (build_nth _ _ _ B'), M'. cbn [option_map]. eexists. split; [reflexivity|].
  cbn [bm_mod bm_imported]. split; [exact S|]. symmetry. apply imported_reordered, S.
Qed.
Lemma simple_list_in : forall i bm bm', nth_error (b_modules b) i = Some bm -> nth_error (b_modules b') i = Some bm' ->
  incl (simple_definition_list b bm) (simple_definition_list b' bm').
Proof.
  intros i bm bm' H H'. destruct (bmodule_reordered _ _ H) as (x & X & S & I). rewrite X in H'. injection H' as <-.
  assert (D : forall m m', reordered m m' -> incl (simple_defs (mod_defs m)) (simple_defs (mod_defs m'))).
  { intros m m' R y. unfold simple_defs. apply Permutation_in, Permutation_flat_map, R. }
  intros y Y. unfold simple_definition_list in *. apply in_app_iff in Y as [Y|Y]; apply in_app_iff; [left; apply (D _ _ S), Y|right].
  rewrite I. apply in_flat_map in Y as (j & J & Y). apply in_flat_map. exists j. split; [exact J|].
  destruct (nth_error (b_modules b) j) as [im|] eqn:E; [|destruct Y]. destruct (bmodule_reordered _ _ E) as (im' & -> & S' & _). apply (D _ _ S'), Y.
Qed.
End Bundles.

Lemma find_same : forall A (f : A -> bool) l l', (forall x, In x l <-> In x l') -> (forall x y, In x l -> In y l -> f x = true -> f y = true -> x = y) ->
  find f l = find f l'.
Proof.
  intros A f l l' I U. destruct (find f l) as [x|] eqn:E, (find f l') as [y|] eqn:E'; [|exfalso|exfalso|reflexivity].
  - apply find_some in E as (E1 & E2), E' as (E3 & E4). f_equal. apply U; auto. apply I, E3.
  - apply find_some in E as (E1 & E2). rewrite (find_none _ _ E' x (proj1 (I x) E1)) in E2. discriminate.
  - apply find_some in E' as (E1 & E2). rewrite (find_none _ _ E y (proj2 (I y) E1)) in E2. discriminate.
Qed.

Lemma parse_reordered : forall m m' p p', reordered m m' -> parse_module m = Ok p -> parse_module m' = Ok p' -> reordered p p'.
Proof.
  intros m m' p p' [A B C D P] H H'. unfold parse_module in *.
  repeat (match goal with Q : bind _ _ = Ok _ |- _ => apply bind_ok in Q; destruct Q as (? & ? & Q) end).
  injection H as <-. injection H' as <-. split; cbn [mod_name mod_comment mod_imports mod_comment_import mod_defs]; try assumption.
  match goal with X : map_result _ (mod_defs m) = Ok _, Y : map_result _ (mod_defs m') = Ok _ |- _ => apply map_result_ok in X, Y;
    refine (perm_image _ _ _ _ _ _ _ _ P X Y) end.
  intros ? ? ? E E'. congruence.
Qed.
Lemma parses_reordered : forall l l' p p', Forall2 reordered l l' -> parse_modules l = Ok p -> parse_modules l' = Ok p' -> Forall2 reordered p p'.
Proof.
  intros l l' p p' F H H'. unfold parse_modules in *. apply map_result_ok in H, H'. revert p p' H H'.
  induction F as [|m m' l l' S F IH]; intros p p' H H'; inversion H; inversion H'; subst; constructor; [|auto].
  eapply parse_reordered; eassumption.
Qed.

(** ** Two accepted inputs *)

Lemma flat_map_map : forall A B C (f : B -> list C) (g : A -> B) l, flat_map f (map g l) = flat_map (fun x => f (g x)) l.
Proof. intros A B C f g l. rewrite !flat_map_concat_map, map_map. reflexivity. Qed.
Lemma existsb_map : forall A B (f : B -> bool) (g : A -> B) l, existsb f (map g l) = existsb (fun x => f (g x)) l.
Proof. intros A B f g l. induction l as [|x l IH]; [reflexivity|]. cbn [map existsb]. rewrite IH. reflexivity. Qed.
Lemma existsb_permuted : forall A (f : A -> bool) l l', Permutation l l' -> existsb f l = existsb f l'.
Proof.
  intros A f l l' P. apply Bool.eq_true_iff_eq. rewrite !existsb_exists. split; intros (x & X & H); exists x; split; auto;
    eapply Permutation_in; [exact P|exact X|apply Permutation_sym; exact P|exact X].
Qed.
Lemma existsb_ext : forall A (f g : A -> bool) l, (forall x, In x l -> f x = g x) -> existsb f l = existsb g l.
Proof.
  intros A f g l. induction l as [|x l IH]; intros H; [reflexivity|]. cbn [existsb]. rewrite (H x (or_introl eq_refl)), IH; [reflexivity|].
  intros y Y. apply H. right. exact Y.
Qed.
Lemma flat_map_same : forall A B (f g : A -> list B) l, (forall x, In x l -> f x = g x) -> flat_map f l = flat_map g l.
Proof.
  intros A B f g l. induction l as [|x l IH]; intros H; [reflexivity|]. cbn [flat_map]. rewrite (H x (or_introl eq_refl)), IH; [reflexivity|].
  intros y Y. apply H. right. exact Y.
Qed.
Lemma pieced_ext : forall pc pc' l acc c, (forall d, In d l -> pc d = pc' d) -> pieced pc l acc c -> pieced pc' l acc c.
Proof.
  intros pc pc' l acc c H [P1 P2 P3 P4 P5 P6 P7 P8].
  split; try assumption; match goal with Q : ?x = _ |- ?x = _ => rewrite Q; f_equal; (apply flat_map_same || apply existsb_ext); intros d D; rewrite (H d D); reflexivity end.
Qed.
Lemma pieced_map : forall pc p l acc c, pieced pc (map p l) acc c -> pieced (fun d => pc (p d)) l acc c.
Proof. intros pc p l acc c [P1 P2 P3 P4 P5 P6 P7 P8]. rewrite !flat_map_map in *. rewrite !existsb_map in *. split; assumption. Qed.

Definition parsed (d : definition) : definition := match process_definition d with Ok x => x | _ => d end.
Lemma parsed_defs : forall m p, parse_module m = Ok p -> mod_defs p = map parsed (mod_defs m).
Proof.
  intros m p H. unfold parse_module in H. repeat (match goal with Q : bind _ _ = Ok _ |- _ => apply bind_ok in Q; destruct Q as (? & ? & Q) end).
  injection H as <-. cbn [mod_defs]. match goal with X : map_result _ _ = Ok _ |- _ => apply map_result_ok in X; revert X end.
  clear. intros X. induction X as [|d y l r E X IH]; [reflexivity|]. cbn [map]. rewrite <- IH. unfold parsed. rewrite E. reflexivity.
Qed.

Section Configs.
Variables (names : list string) (input input' : list module) (b b' : bundle).
Hypothesis C : config names input b.
Hypothesis C' : config names input' b'.
Hypothesis R : Forall2 reordered input input'.

Lemma built : exists ms ms', Forall2 reordered ms ms' /\ parse_modules input = Ok ms /\ parse_modules input' = Ok ms'
  /\ build ms = Ok b /\ build ms' = Ok b' /\ all_modules b = ms /\ all_modules b' = ms'.
Proof.
  destruct (build_from_config_inv _ _ _ (proj2 C)) as (ms & P & B & A & _). destruct (build_from_config_inv _ _ _ (proj2 C')) as (ms' & P' & B' & A' & _).
  exists ms, ms'. split; [eapply parses_reordered; eassumption|]. auto 10.
Qed.
Lemma unique : NoDup (map def_name (all_defs b)).
Proof. apply (accepted_same _ _ (config_accepted _ _ _ C)). Qed.

Lemma defs_permuted : Permutation (all_defs b) (all_defs b').
Proof. destruct built as (ms & ms' & F & _ & _ & _ & _ & A & A'). unfold all_defs. rewrite A, A'. apply (reordered_definitions _ _ F). Qed.
Lemma lookup_reordered : forall n, lookup_def (all_defs b) n = lookup_def (all_defs b') n.
Proof.
  intros n. unfold lookup_def. apply dict_get_permuted; [apply Permutation_map, defs_permuted|]. rewrite map_map. exact unique.
Qed.

Lemma note_reordered : forall n t, cfs_note b n t = cfs_note b' n t.
Proof.
  intros n t.
  assert (U : forall x, (exists m, In m input /\ x = mod_name m /\ uses_type m n) <-> (exists m, In m input' /\ x = mod_name m /\ uses_type m n)).
  { assert (H : forall l l' x, Forall2 reordered l l' -> (exists m, In m l /\ x = mod_name m /\ uses_type m n) -> exists m, In m l' /\ x = mod_name m /\ uses_type m n).
    { intros l l' x F (m & M & -> & Q). destruct (reordered_in _ _ m F M) as (m' & M' & S). exists m'. rewrite (re_name _ _ S). eauto using reordered_uses. }
    intros x. split; apply H; [exact R|apply reordered_flip, R]. }
  destruct (note_text _ _ _ n t (proj1 C) (proj2 C)) as [(V & ->)|(us & Ne & Nd & So & Iff & ->)];
  destruct (note_text _ _ _ n t (proj1 C') (proj2 C')) as [(V' & ->)|(us' & Ne' & Nd' & So' & Iff' & ->)]; [reflexivity| | |].
  - destruct us' as [|x us']; [congruence|]. destruct (proj2 (U x) (proj1 (Iff' x) (or_introl eq_refl))) as (m & M & _ & T). destruct (V m M T).
  - destruct us as [|x us]; [congruence|]. destruct (proj1 (U x) (proj1 (Iff x) (or_introl eq_refl))) as (m & M & _ & T). destruct (V' m M T).
  - assert (us = us') as ->; [|reflexivity]. apply sorted_unique; auto. intros x. rewrite Iff, Iff'. apply U.
Qed.

Section One.
Variables (i : nat) (bm bm' : bmodule) (m m' : module).
Hypothesis Hi : nth_error (b_modules b) i = Some bm.
Hypothesis Hi' : nth_error (b_modules b') i = Some bm'.
Hypothesis Pm : parse_module m = Ok (bm_mod bm).
Hypothesis Pm' : parse_module m' = Ok (bm_mod bm').
Hypothesis Rm : reordered m m'.

Lemma module_reordered : reordered (bm_mod bm) (bm_mod bm').
Proof. eapply parse_reordered; eassumption. Qed.
Lemma module_unique : NoDup (map def_name (mod_defs (bm_mod bm))).
Proof.
  assert (N := unique). unfold all_defs, all_modules in N. apply nth_error_split in Hi as (l1 & l2 & E & _). rewrite E in N.
  rewrite map_app, flat_map_app, map_app in N. cbn [map flat_map] in N. rewrite map_app in N. apply NoDup_app_iff in N as (_ & N & _).
  apply NoDup_app_iff in N. apply N.
Qed.

Lemma simple_found : forall ct, find (fun sd => String.eqb (c_name (fst sd)) ct) (simple_definition_list b bm)
  = find (fun sd => String.eqb (c_name (fst sd)) ct) (simple_definition_list b' bm').
Proof.
  destruct built as (ms & ms' & F & _ & _ & B & B' & A & A').
  assert (D : forall n t, In (n, t) (simple_definition_list b bm) -> exists c, In (DSimple n t c) (all_defs b)).
  { assert (K : forall l n t, In (n, t) (simple_defs l) -> exists c, In (DSimple n t c) l).
    { intros l n t H. apply in_flat_map in H as (d & D & H). destruct d as [n0 c0 l0|n0 c0 l0|n0 c0 l0|n0 t0 c0]; try (destruct H; fail).
      destruct H as [H|[]]. injection H as -> ->. eauto. }
    intros n t H. unfold simple_definition_list in H. apply in_app_iff in H as [H|H].
    - apply K in H as (c & H). exists c. apply in_all_defs. exists bm. split; [eapply nth_error_In; exact Hi|exact H].
    - apply in_flat_map in H as (j & _ & H). destruct (nth_error (b_modules b) j) as [im|] eqn:E; [|destruct H]. apply K in H as (c & H). exists c.
      apply in_all_defs. exists im. split; [eapply nth_error_In; exact E|exact H]. }
  intros ct. apply find_same.
  - intros x. split; [apply (simple_list_in ms ms' F b b' B B' i bm bm' Hi Hi')|].
    apply (simple_list_in ms' ms (reordered_flip _ _ F) b' b B' B i bm' bm Hi' Hi).
  - intros [n t] [n' t'] X Y E E'. cbn [fst] in *. apply String.eqb_eq in E, E'. apply D in X as (c & X), Y as (c' & Y).
    assert (n = n') as <-.
    { apply c_name_inj; [| |congruence]; apply capital_name; [apply (config_capital _ _ _ _ C X)|apply (config_capital _ _ _ _ C Y)]. }
    assert (Q : DSimple n t c = DSimple n t' c') by (apply (nodup_def _ _ _ unique X Y); reflexivity). injection Q as -> _. reflexivity.
Qed.

Lemma cdata_reordered : forall fuel inc note note' wch wch' c c', (forall n t, agree (note n t) (note' n t)) -> (forall n k, agree (wch n k) (wch' n k)) ->
  module_cdata fuel b bm inc note wch = Ok c -> module_cdata fuel b' bm' inc note' wch' = Ok c' ->
  exists pc l l' hc, Permutation (mod_defs m) l /\ Permutation (mod_defs m') l'
    /\ pieced pc l (mkcdata [] [] (initial_includes inc (bm_mod bm)) [] [] "" false false hc []) c
    /\ pieced pc l' (mkcdata [] [] (initial_includes inc (bm_mod bm)) [] [] "" false false hc []) c'.
Proof.
  intros fuel inc note note' wch wch' c c' N W H H'. unfold module_cdata in *. apply bind_ok in H as (so & S & H), H' as (so' & S' & H').
  apply bind_ok in H as (x & X & H), H' as (x' & X' & H').
  assert (P := sorted_perm _ _ _ S). assert (P' := sorted_perm _ _ _ S'). rewrite (parsed_defs _ _ Pm) in P. rewrite (parsed_defs _ _ Pm') in P'.
  destruct (Permutation_map_inv _ _ P) as (l & -> & Q). destruct (Permutation_map_inv _ _ P') as (l' & -> & Q').
  apply convert_all in X as (O & K), X' as (O' & K'). apply pieced_map in K, K'.
  assert (Inc : initial_includes inc (bm_mod bm') = initial_includes inc (bm_mod bm)).
  { destruct module_reordered as [_ _ E1 E2 _]. unfold initial_includes. rewrite E1, E2. reflexivity. }
  rewrite Inc in K'.
  assert (Cm : mod_comment (bm_mod bm') = mod_comment (bm_mod bm)) by apply module_reordered. rewrite Cm in H'.
  eapply (pieced_ext _ (fun d => piece fuel (all_defs b) (simple_definition_list b bm) note wch (parsed d))) in K'.
  2: { intros d D. rewrite Forall_forall in O, O'. destruct (O' (parsed d)) as (y' & Y'); [apply in_map, D|].
    destruct (O (parsed d)) as (y & Y).
    { apply in_map. apply (Permutation_in _ Q), (reordered_def _ _ d Rm), (Permutation_in _ (Permutation_sym Q')), D. }
    unfold piece. rewrite Y, Y'. symmetry.
    exact (single_two fuel _ _ _ _ note note' wch wch' lookup_reordered simple_found N W (parsed d) _ _ Y Y'). }
  exists (fun d => piece fuel (all_defs b) (simple_definition_list b bm) note wch (parsed d)), l, l', (cd_header_comment c).
  split; [exact Q|]. split; [exact Q'|]. injection H as <-. injection H' as <-.
  destruct K as [K1 K2 K3 K4 K5 K6 K7 K8], K' as [L1 L2 L3 L4 L5 L6 L7 L8]. cbn in K8, L8.
  destruct (mod_comment (bm_mod bm)) as [cm|]; [destruct (String.eqb (cm_text cm) "")|]; split; split; cbn; try assumption; congruence.
Qed.
End One.
End Configs.

(** ** The text *)

Lemma sconcat_cons : forall x l, String.concat "" (x :: l) = (x ++ String.concat "" l)%string.
Proof. intros x [|y l]; [cbn; rewrite string_app_nil; reflexivity|reflexivity]. Qed.
Lemma sconcat_app : forall a l, String.concat "" (a ++ l) = (String.concat "" a ++ String.concat "" l)%string.
Proof. induction a as [|x a IH]; intros l; [reflexivity|]. cbn [app]. rewrite !sconcat_cons, IH, string_app_assoc. reflexivity. Qed.
Lemma concat_str_app : forall A (f : A -> string) a l, concat_map_str f (a ++ l) = (concat_map_str f a ++ concat_map_str f l)%string.
Proof. intros A f a l. unfold concat_map_str. rewrite map_app, sconcat_app. reflexivity. Qed.
Lemma concat_parts : forall A (f : A -> string) (g : definition -> list A) l,
  concat_map_str f (flat_map g l) = parts (fun d => concat_map_str f (g d)) l.
Proof.
  intros A f g l. unfold parts, concat_map_str. induction l as [|d l IH]; [reflexivity|]. cbn [flat_map map].
  rewrite map_app, sconcat_app, IH, sconcat_cons. reflexivity.
Qed.
Lemma parts_none : forall l, parts (fun _ => ""%string) l = ""%string.
Proof. induction l as [|d l IH]; [reflexivity|]. unfold parts in *. cbn [map]. rewrite sconcat_cons. exact IH. Qed.
Lemma is_nil_permuted : forall A (l l' : list A), Permutation l l' -> is_nil l = is_nil l'.
Proof. intros A l l' P. apply Permutation_length in P. destruct l, l'; try reflexivity; discriminate. Qed.

Section Text.
Variables (m m' : module) (pc : definition -> cdata) (l l' : list definition) (inc : list cinclude) (hc : string) (c c' : cdata).
Hypothesis Rm : reordered m m'.
Hypothesis P : Permutation (mod_defs m) l.
Hypothesis P' : Permutation (mod_defs m') l'.
Hypothesis K : pieced pc l (mkcdata [] [] inc [] [] "" false false hc []) c.
Hypothesis K' : pieced pc l' (mkcdata [] [] inc [] [] "" false false hc []) c'.

Lemma lists_permuted : Permutation l l'.
Proof. eapply Permutation_trans; [apply Permutation_sym; exact P|]. eapply Permutation_trans; [apply Rm|exact P']. Qed.

Lemma header_rearranged : forall fn h, rearranged m m' (render_header c fn h) (render_header c' fn h).
Proof.
  intros fn h. destruct K as [K1 K2 K3 K4 K5 K6 K7 K8], K' as [L1 L2 L3 L4 L5 L6 L7 L8]. cbn in K1, K2, K3, K4, K5, K6, K7, K8, L1, L2, L3, L4, L5, L6, L7, L8.
  unfold render_header. rewrite K1, K2, K3, K5, K6, K7, K8, L1, L2, L3, L5, L6, L7, L8.
  assert (Q := lists_permuted).
  rewrite <- !(is_nil_permuted _ _ _ (Permutation_flat_map (fun d => cd_defines (pc d)) Q)), <- !(is_nil_permuted _ _ _ (Permutation_flat_map (fun d => cd_predefs (pc d)) Q)).
  rewrite <- !(existsb_permuted _ (fun d => cd_stdbool (pc d)) l l' Q), <- !(existsb_permuted _ (fun d => cd_stdint (pc d)) l l' Q).
  rewrite !concat_str_app, !concat_parts.
  destruct (is_msgids h) eqn:Eh.
  - assert (Es : is_stored_data h = false) by (destruct h; try discriminate; reflexivity). rewrite Es.
    exists ((guard_open fn ++ NL) ++ file_header "" ++ NL)%string, "", "",
      ((if is_nil (flat_map (fun d => cd_defines (pc d)) l) then "" else NL) ++ guard_close fn)%string, (fun _ => ""),
      (fun d => if is_nil (flat_map (fun d => cd_defines (pc d)) l) then "" else concat_map_str (fun d => render_define d ++ NL)%string (cd_defines (pc d))), (fun _ => ""), l, l'.
    split; [exact P|]. split; [exact P'|]. rewrite !parts_none.
    destruct (is_nil (flat_map (fun d => cd_defines (pc d)) l)); rewrite ?parts_none; cbn [append]; rewrite ?string_app_assoc; split; reflexivity.
  - destruct (is_stored_data h) eqn:Es.
    + exists ((guard_open fn ++ NL) ++ file_header hc ++ NL ++ (if existsb (fun d => cd_stdbool (pc d)) l then "#include <stdbool.h>" ++ NL else "")
         ++ (if existsb (fun d => cd_stdint (pc d)) l then "#include <stdint.h>" ++ NL else "") ++ concat_map_str (fun i => render_include i ++ NL) inc)%string, NL, "",
        ((if is_nil (flat_map (fun d => cd_predefs (pc d)) l) then "" else NL) ++ guard_close fn)%string,
        (fun d => concat_map_str (fun i => render_include i ++ NL)%string (cd_includes (pc d))),
        (fun d => concat_map_str (fun d => render_decl d ++ NL ++ NL)%string (cd_data (pc d))),
        (fun d => if is_nil (flat_map (fun d => cd_predefs (pc d)) l) then "" else concat_map_str (fun p => p ++ NL)%string (cd_predefs (pc d))), l, l'.
      split; [exact P|]. split; [exact P'|].
      destruct (is_nil (flat_map (fun d => cd_predefs (pc d)) l)); rewrite ?parts_none; cbn [append]; rewrite ?string_app_assoc; split; reflexivity.
    + exists ((guard_open fn ++ NL) ++ file_header hc ++ NL ++ (if existsb (fun d => cd_stdbool (pc d)) l then "#include <stdbool.h>" ++ NL else "")
         ++ (if existsb (fun d => cd_stdint (pc d)) l then "#include <stdint.h>" ++ NL else "") ++ concat_map_str (fun i => render_include i ++ NL) inc)%string, NL, "",
        (guard_close fn)%string,
        (fun d => concat_map_str (fun i => render_include i ++ NL)%string (cd_includes (pc d))),
        (fun d => concat_map_str (fun d => render_decl d ++ NL ++ NL)%string (cd_data (pc d))), (fun _ => ""), l, l'.
      split; [exact P|]. split; [exact P'|]. rewrite ?parts_none; cbn [append]; rewrite ?string_app_assoc; split; reflexivity.
Qed.

Lemma source_rearranged : (forall x, x = c \/ x = c' -> cd_init_include x = "" \/ exists n, cd_init_include x = quoted_include n) ->
  rearranged_but_include m m' (render_source c) (render_source c').
Proof.
  intros I. unfold render_source. destruct K as [K1 K2 K3 K4 K5 K6 K7 K8], K' as [L1 L2 L3 L4 L5 L6 L7 L8]. cbn in K4, K8, L4, L8.
  rewrite K4, K8, L4, L8.
  assert (T : forall l, String.concat "" (flat_map (fun d => cd_inits (pc d)) l) = parts (fun d => concat_map_str (fun x => x) (cd_inits (pc d))) l).
  { intros k. rewrite <- concat_parts. unfold concat_map_str. rewrite map_id. reflexivity. }
  rewrite !T.
  exists (file_header hc ++ NL)%string, (if String.eqb (cd_init_include c) "" then "" else cd_init_include c ++ NL ++ NL)%string,
    (if String.eqb (cd_init_include c') "" then "" else cd_init_include c' ++ NL ++ NL)%string,
    (fun d => concat_map_str (fun x => x) (cd_inits (pc d))), l, l'.
  split; [exact P|]. split; [exact P'|].
  assert (M : forall x, x = c \/ x = c' -> maybe_include (if String.eqb (cd_init_include x) "" then "" else cd_init_include x ++ NL ++ NL)%string).
  { intros x X. destruct (I x X) as [->|(n & ->)]; [left; reflexivity|]. right. exists n.
    change (String.eqb (quoted_include n) "") with false. cbv iota. unfold quoted_include. rewrite <- !string_app_assoc. reflexivity. }
  split; [apply M; auto|]. split; [apply M; auto|]. rewrite <- !string_app_assoc. split; reflexivity.
Qed.
End Text.

(** ** The images *)

Lemma handled_agree : forall w w' d cs cs', (forall n k, agree (w n k) (w' n k)) -> handled w d cs -> handled w' d cs' -> cs = cs'.
Proof.
  intros w w' d cs cs' A H H'. unfold handled in *. revert cs' H'. induction H as [|k c l cs E H IH]; intros cs' H'; inversion H'; subst; [reflexivity|].
  f_equal; [eapply A; eassumption|auto].
Qed.

Section Images.
Variables (names : list string) (input input' : list module) (b b' : bundle) (e : option endianness) (fuel : nat).
Hypothesis C : config names input b.
Hypothesis C' : config names input' b'.
Hypothesis R : Forall2 reordered input input'.
Variables (i : nat) (bm bm' : bmodule) (m m' : module).
Hypothesis Hi : nth_error (b_modules b) i = Some bm.
Hypothesis Hi' : nth_error (b_modules b') i = Some bm'.
Hypothesis Pm : parse_module m = Ok (bm_mod bm).
Hypothesis Pm' : parse_module m' = Ok (bm_mod bm').
Hypothesis Rm : reordered m m'.

Lemma clauses_agree : forall n k, agree (bin_with_components fuel e (all_defs b) (bm_mod bm) n k) (bin_with_components fuel e (all_defs b') (bm_mod bm') n k).
Proof.
  intros n k. apply bin_two.
  - apply (lookup_reordered names input input' b b' C C' R).
  - apply re_defs. exact (module_reordered bm bm' m m' Pm Pm' Rm).
  - exact (module_unique names input b C i bm Hi).
Qed.

Lemma binary_flat : forall nms inp bu j x fl c, config nms inp bu -> nth_error (b_modules bu) j = Some x ->
  bin_cdata fl e bu x = Ok c -> exists sorted css, Permutation sorted (mod_defs (bm_mod x))
    /\ Forall2 (handled (bin_with_components fl e (all_defs bu) (bm_mod x))) sorted css
    /\ cd_binary c = flat_map clause_binary css /\ NoDup (map fst (cd_binary c)).
Proof.
  intros nms inp bu j x fl c D Hj H. unfold bin_cdata in H. apply module_collects in H; [|apply bin_wch_includes].
  destruct H as (sorted & css & iss & S & F & _ & _ & _ & _ & _ & _ & B). assert (P := sorted_perm _ _ _ S). exists sorted, css.
  split; [exact P|]. split; [exact F|].
  assert (Nd : NoDup (map def_name sorted)).
  { eapply Permutation_NoDup; [apply Permutation_map, Permutation_sym; exact P|]. exact (module_unique nms inp bu D j x Hj). }
  assert (Cap : forall d, In d sorted -> is_name_capital (def_name d) = true).
  { intros d Hd. eapply config_capital; [exact D|]. apply in_all_defs. exists x. split; [eapply nth_error_In; exact Hj|].
    apply (Permutation_in _ P). exact Hd. }
  assert (Nl : NoDup (map (fun d => lowerize (c_name (def_name d))) sorted)).
  { clear - Nd Cap. induction sorted as [|d l IH]; simpl; [constructor|]. simpl in Nd. inversion Nd as [|? ? N1 N2]; subst.
    constructor; [|apply IH; [exact N2|intros y Hy; apply Cap; right; exact Hy]].
    intros G. apply in_map_iff in G. destruct G as (y & E & Hy). apply N1.
    apply lower_c_name_inj in E; [|apply Cap; right; exact Hy|apply Cap; left; reflexivity].
    rewrite <- E. apply in_map. exact Hy. }
  exact (bin_cdata_binary _ _ _ _ _ _ _ F Nl B).
Qed.

Lemma binary_permuted : forall c c', bin_cdata fuel e b bm = Ok c -> bin_cdata fuel e b' bm' = Ok c' -> Permutation (cd_binary c) (cd_binary c').
Proof.
  intros c c' H H'. destruct (binary_flat _ _ _ _ _ _ _ C Hi H) as (so & css & P & F & -> & _).
  destruct (binary_flat _ _ _ _ _ _ _ C' Hi' H') as (so' & css' & P' & F' & -> & _). apply Permutation_flat_map.
  assert (Q : Permutation so so').
  { eapply Permutation_trans; [exact P|]. eapply Permutation_trans; [|apply Permutation_sym; exact P']. apply re_defs. exact (module_reordered bm bm' m m' Pm Pm' Rm). }
  set (w := bin_with_components fuel e (all_defs b) (bm_mod bm)) in *. set (w' := bin_with_components fuel e (all_defs b') (bm_mod bm')) in *.
  assert (A : forall n k, agree (w n k) (w' n k)) by exact clauses_agree.
  assert (A' : forall n k, agree (w' n k) (w n k)) by (intros n k x x' X X'; symmetry; eapply A; eassumption).
  apply (perm_image _ _ (fun d cs => handled w d cs \/ handled w' d cs) so so'); [|exact Q|eapply Forall2_impl; [|exact F]; auto|eapply Forall2_impl; [|exact F']; auto].
  intros d cs cs' [X|X] [Y|Y]; eauto using handled_agree, agree_refl.
Qed.
End Images.

(** ** Whole runs *)

Lemma file_of_reordered : forall cmd m m' f, reordered m m' -> file_of cmd m f -> file_of cmd m' f.
Proof.
  intros cmd m m' f S. unfold file_of. rewrite (re_name _ _ S). destruct cmd; auto. intros [E|(n & c & l & k & D & Q)]; [left; exact E|right].
  exists n, c, l, k. split; [apply (reordered_def _ _ _ S); exact D|exact Q].
Qed.

Lemma Forall2_nth_l : forall (A B : Type) (Q : A -> B -> Prop) l l' i x, Forall2 Q l l' -> nth_error l i = Some x -> exists y, nth_error l' i = Some y /\ Q x y.
Proof. intros A B Q l l' i x F. revert i. induction F as [|a b l l' Hq F IH]; intros [|i] E; try discriminate; cbn [nth_error] in *; [injection E as <-; eauto|eauto]. Qed.

Lemma config_nth : forall names input b i m, config names input b -> nth_error input i = Some m ->
  exists bm, nth_error (b_modules b) i = Some bm /\ parse_module m = Ok (bm_mod bm).
Proof.
  intros names input b i m (Hg & B) H. destruct (build_from_config_inv _ _ _ B) as (ms & Hp & _ & A & _). apply map_result_ok in Hp. rewrite <- A in Hp.
  unfold all_modules in Hp. destruct (Forall2_nth_l _ _ _ _ _ _ _ Hp H) as (y & Hy & P). rewrite nth_error_map in Hy. destruct (nth_error (b_modules b) i) as [bm|]; [|discriminate]. injection Hy as <-. eauto.
Qed.

Lemma module_contents : forall names cmd input input' b b' fuel i bm bm' m m' fl fl' f t t', config_command names cmd ->
  config names input b -> config names input' b' -> Forall2 reordered input input' ->
  nth_error (b_modules b) i = Some bm -> nth_error (b_modules b') i = Some bm' ->
  parse_module m = Ok (bm_mod bm) -> parse_module m' = Ok (bm_mod bm') -> reordered m m' ->
  module_files fuel cmd b bm = Ok fl -> module_files fuel cmd b' bm' = Ok fl' -> (forall x y y', In (x, y) fl' -> In (x, y') fl' -> y = y') ->
  In (f, t) fl -> In (f, t') fl' -> same_contents m m' f t t'.
Proof.
  intros names cmd input input' b b' fuel i bm bm' m m' fl fl' f t t' Hc C C' R Hi Hi' Pm Pm' Rm H H' N' I I'.
  assert (En : bm_name bm' = bm_name bm) by exact (re_name _ _ (module_reordered bm bm' m m' Pm Pm' Rm)).
  destruct Hc as [->|[->|(e & ->)]]; cbn [module_files] in H, H'.
  - unfold cfs_module in *. apply bind_ok in H as (c & H & E), H' as (c' & H' & E').
    assert (An : forall n t0, agree (cfs_note b n t0) (cfs_note b' n t0)).
    { intros n t0. rewrite (note_reordered names input input' b b' C C' R). apply agree_refl. }
    unfold cfs_cdata in *. destruct (cdata_reordered names input input' b b' C C' R i bm bm' m m' Hi Hi' Pm Pm' Rm fuel _ _ _ _ _ c c' An (fun n k => agree_refl _ _) H H')
      as (pc & l & l' & hc & P & P' & K & K').
    rewrite En in E'. injection E as <-. injection E' as <-. cbn [print_to_file is_stored_data is_binary app] in *.
    destruct I as [I|[I|[]]]; injection I as <- <-.
    + eapply N' in I'; [|left; reflexivity]. subst t'. apply same_header. eapply header_rearranged; eassumption.
    + eapply N' in I'; [|right; left; reflexivity]. subst t'. apply same_header. eapply header_rearranged; eassumption.
  - unfold c_module in *. apply bind_ok in H as (c & H & E), H' as (c' & H' & E').
    unfold c_cdata in *. rewrite En in H', E'.
    destruct (cdata_reordered names input input' b b' C C' R i bm bm' m m' Hi Hi' Pm Pm' Rm fuel _ _ _ _ _ c c' (fun n t0 => agree_refl _ _) (fun n k => agree_refl _ _) H H')
      as (pc & l & l' & hc & P & P' & K & K').
    injection E as <-. injection E' as <-. cbn [print_to_file is_stored_data is_binary app] in *.
    destruct I as [I|[I|[]]]; injection I as <- <-.
    + eapply N' in I'; [|left; reflexivity]. subst t'. apply same_header. eapply header_rearranged; eassumption.
    + eapply N' in I'; [|right; left; reflexivity]. subst t'. apply same_source. eapply source_rearranged; try eassumption.
      assert (Inc : forall bu x c0, module_cdata fuel bu x c_filename c_note (c_with_components (bm_name bm)) = Ok c0 ->
        cd_init_include c0 = "" \/ exists n, cd_init_include c0 = quoted_include n).
      { intros bu x c0 Q. unfold module_cdata in Q. apply bind_ok in Q as (so & _ & Q). apply bind_ok in Q as (c1 & Q1 & Q).
        eapply (definitions_include _ _ _ _ _ (fun s => s = "" \/ exists n, s = quoted_include n)) in Q1; [| | |].
        - injection Q as <-. destruct (mod_comment (bm_mod x)) as [cm|]; [destruct (String.eqb (cm_text cm) "")|]; exact Q1.
        - left. reflexivity.
        - intros n k c2 Q2. unfold c_with_components in Q2. destruct (m_with k); injection Q2 as <-; [right; eexists; reflexivity|left; reflexivity].
        - left. reflexivity. }
      intros x [->| ->]; eapply Inc; eassumption.
  - unfold bin_module in *. apply bind_ok in H as (c & H & E), H' as (c' & H' & E').
    assert (BP := binary_permuted names input input' b b' e fuel C C' R i bm bm' m m' Hi Hi' Pm Pm' Rm c c' H H'). unfold bin_cdata in *.
    assert (Aw := clauses_agree names input input' b b' e fuel C C' R i bm bm' m m' Hi Pm Pm' Rm).
    destruct (cdata_reordered names input input' b b' C C' R i bm bm' m m' Hi Hi' Pm Pm' Rm fuel _ _ _ _ _ c c' (fun n t0 => agree_refl _ _) Aw H H')
      as (pc & l & l' & hc & P & P' & K & K').
    rewrite En in E'. injection E as <-. injection E' as <-. cbn [print_to_file is_stored_data is_binary app] in *.
    destruct I as [I|I].
    + injection I as <- <-. eapply N' in I'; [|left; reflexivity]. subst t'. apply same_header. eapply header_rearranged; eassumption.
    + assert (J := I). apply in_map_iff in J as ((k & v) & Q & J). cbn [fst snd] in Q. injection Q as <- <-.
      assert (J' : In (k, v) (cd_binary c')) by (eapply Permutation_in; eassumption).
      assert (J2 : In ((k ++ ".bin")%string, string_of_bytes (concat v)) (((bin_filename (bm_name bm) ++ ".h")%string, render_header c' (bin_filename (bm_name bm) ++ ".h") STORED_DATA_BINARY)
         :: map (fun kv => ((fst kv ++ ".bin")%string, string_of_bytes (concat (snd kv)))) (cd_binary c'))).
      { right. apply in_map_iff. exists (k, v). split; [reflexivity|exact J']. }
      rewrite (N' _ _ _ J2 I'). apply same_image.
Qed.

Theorem definitions_reordered : forall names cmd input input' fuel fs fs1, config_command names cmd ->
  Forall (fun m => grammatical m = true) input -> Forall2 reordered input input' -> run fuel cmd input fs = (fs1, Ok tt) ->
  exists F, forall fuel', (F <= fuel')%nat -> exists fs2, run fuel' cmd input' fs = (fs2, Ok tt)
    /\ (forall f, (forall m, In m input -> ~ file_of cmd m f) -> folder_get fs2 f = folder_get fs1 f)
    /\ forall i m m' f, nth_error input i = Some m -> nth_error input' i = Some m' -> file_of cmd m f ->
       exists t t', folder_get fs1 f = Some t /\ folder_get fs2 f = Some t' /\ same_contents m m' f t t'.
Proof.
  intros names cmd input input' fuel fs fs1 Hc G R Ru.
  assert (G' : Forall (fun m => grammatical m = true) input').
  { rewrite Forall_forall in *. intros m' M'. destruct (reordered_in _ _ m' (reordered_flip _ _ R) M') as (m & M & S).
    eapply reordered_grammatical; [apply reordered_sym; exact S|apply G, M]. }
  destruct (reordered_succeeds names cmd input input' fuel fs Hc G R ltac:(rewrite Ru; reflexivity)) as (F0 & Ok0).
  exists (Nat.max F0 fuel). intros fuel' L. assert (Ok1 := Ok0 fuel' fs ltac:(lia)).
  destruct (run fuel' cmd input' fs) as [fs2 r] eqn:R'. cbn [snd] in Ok1. subst r. exists fs2. split; [reflexivity|].
  assert (U := run_more fuel fuel' cmd input fs ltac:(lia)). rewrite Ru in U. specialize (U ltac:(discriminate)).
  destruct (run_contents _ _ _ _ _ _ Hc G U) as (b & files & C & -> & N & All & X).
  destruct (run_contents _ _ _ _ _ _ Hc G' R') as (b' & files' & C' & -> & N' & All' & X').
  assert (Names : forall nms inp bu fls, config nms inp bu -> Forall (fun m => grammatical m = true) inp -> config_command nms cmd ->
     (forall x, In x fls <-> exists bm fl, In bm (b_modules bu) /\ module_files fuel' cmd bu bm = Ok fl /\ In x fl) ->
     forall f, In f (map fst fls) -> exists m, In m inp /\ file_of cmd m f).
  { intros nms inp bu fls D Gd Hd Y f If. apply in_map_iff in If as ((f0 & t) & <- & If). apply Y in If as (bm & fl & Hbm & Q & If).
    destruct (bmodule_module _ _ _ bm D Hbm) as (m & M & Pm). exists m. split; [exact M|].
    apply (one_files nms inp cmd Gd Hd bu (proj2 D) bm m Hbm (parse_module_same _ _ Pm) fuel' fl Q). apply in_map_iff. exists (f0, t). auto. }
  split.
  - intros f Hf. rewrite !folder_get_all. destruct (dict_get f files) as [t|] eqn:D.
    { apply dict_get_In in D. destruct (Names _ _ _ _ C G Hc X f) as (m & M & Fm); [apply in_map_iff; exists (f, t); auto|]. destruct (Hf m M Fm). }
    destruct (dict_get f files') as [t|] eqn:D'; [|reflexivity].
    apply dict_get_In in D'. destruct (Names _ _ _ _ C' G' Hc X' f) as (m' & M' & Fm); [apply in_map_iff; exists (f, t); auto|].
    destruct (reordered_in _ _ m' (reordered_flip _ _ R) M') as (m & M & S). destruct (Hf m M). eapply file_of_reordered; eassumption.
  - intros i m m' f Hm Hm' Ff. assert (S : reordered m m').
    { destruct (reordered_nth _ _ _ _ R Hm) as (x & Hx & S). congruence. }
    destruct (config_nth _ _ _ _ _ C Hm) as (bm & Hi & Pm). destruct (config_nth _ _ _ _ _ C' Hm') as (bm' & Hi' & Pm').
    assert (Hb := nth_error_In _ _ Hi). assert (Hb' := nth_error_In _ _ Hi').
    destruct (All bm Hb) as (fl & Q). destruct (All' bm' Hb') as (fl' & Q').
    assert (If : In f (map fst fl)) by (apply (one_files names input cmd G Hc b (proj2 C) bm m Hb (parse_module_same _ _ Pm) fuel' fl Q); exact Ff).
    assert (If' : In f (map fst fl')).
    { apply (one_files names input' cmd G' Hc b' (proj2 C') bm' m' Hb' (parse_module_same _ _ Pm') fuel' fl' Q'). eapply file_of_reordered; eassumption. }
    apply in_map_iff in If as ((f1 & t) & E & If), If' as ((f2 & t') & E' & If'). cbn [fst] in E, E'. subst f1 f2.
    exists t, t'. rewrite !folder_get_all.
    assert (J : In (f, t) files) by (apply X; eauto). assert (J' : In (f, t') files') by (apply X'; eauto).
    rewrite (dict_get_NoDup _ f t files N J), (dict_get_NoDup _ f t' files' N' J'). split; [reflexivity|]. split; [reflexivity|].
    assert (Fl : forall fls b0 bm0 fl0, NoDup (map fst fls) -> (forall x, In x fls <-> exists bm fl, In bm (b_modules b0) /\ module_files fuel' cmd b0 bm = Ok fl /\ In x fl) ->
      In bm0 (b_modules b0) -> module_files fuel' cmd b0 bm0 = Ok fl0 -> forall x y y', In (x, y) fl0 -> In (x, y') fl0 -> y = y').
    { intros fls b0 bm0 fl0 Nf Y B0 Q0 x y y' A B. assert (A' : In (x, y) fls) by (apply Y; eauto). assert (B' : In (x, y') fls) by (apply Y; eauto).
      apply (dict_get_NoDup _ _ _ _ Nf) in A', B'. congruence. }
    eapply (module_contents names cmd input input' b b' fuel' i bm bm' m m' fl fl'); eauto.
Qed.
