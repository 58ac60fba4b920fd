(** * Proofs about reported faults *)
From Coq Require Import Lia.
From Verif Require Import Base PyStr PyNum Ast Size Processor Bundle CCommon GenCfs GenC GenBinary GenCosmos Main Source Spec_Grammar Spec_Syntax Spec_Utf8 Spec_Source
  Cli Spec_Cli Tree Spec_Tree Lib_proofs Str_proofs Spec_Gen Spec_Files Spec_Enum Spec_Check Spec_Bundle Spec_Report Enum_proofs Check_proofs Bundle_proofs Reject_proofs
  Field_proofs Source_proofs Run_proofs Ends_proofs Files_proofs
  Cli_proofs Start_proofs Tree_proofs Tree2_proofs Tree3_proofs.
Open Scope string_scope.
Open Scope list_scope.

(** ** Results whose error satisfies [P] *)
Section within.
Variable P : error -> Prop.
Definition within {A} (r : result A) : Prop :=
  match r with Ok _ => True | Err e => P e | OutOfFuel => False end.
Lemma within_ok : forall A (a : A), within (Ok a).
Proof. intros; exact I. Qed.
Lemma within_bind : forall A B (r : result A) (f : A -> result B),
  within r -> (forall a, r = Ok a -> within (f a)) -> within (bind r f).
Proof. intros A B [a|e|] f H G; cbn; auto. Qed.
Lemma within_for_each : forall A (f : A -> result unit) l, (forall x, In x l -> within (f x)) -> within (for_each f l).
Proof.
  induction l as [|x l IH]; intros H; cbn [for_each]; [exact I|].
  apply within_bind; [apply H; left; reflexivity|]. intros _ _. apply IH. intros y Y. apply H. right. exact Y.
Qed.
Lemma within_map_result : forall A B (f : A -> result B) l, (forall x, In x l -> within (f x)) -> within (map_result f l).
Proof.
  induction l as [|x l IH]; intros H; cbn [map_result]; [exact I|].
  apply within_bind; [apply H; left; reflexivity|]. intros b _. apply within_bind; [|intros; exact I].
  apply IH. intros y Y. apply H. right. exact Y.
Qed.
Lemma within_assert : forall b e, P e -> within (assert b e).
Proof. intros [] e H; cbn; auto. Qed.
Lemma within_eq : forall A (r : result A) a, r = Ok a -> within r.
Proof. intros A r a ->. exact I. Qed.
End within.

(** ** Modules *)
Definition is_consistency (e : error) : Prop := e = ConsistencyError.
Definition is_other (e : error) : Prop := e <> ConsistencyError.

Lemma sound_definition : forall d, definition_ok d = true -> Forall clean (definition_comments d) -> definition_sound d ->
  within is_consistency (process_definition d).
Proof.
  assert (M : forall l, forallb member_ok l = true -> Forall clean (flat_map member_comments l) ->
    Forall (fun k => ranges_ok (m_type k)) l -> within is_consistency (for_each process_member l)).
  { intros l O C R. apply within_for_each. intros k K. rewrite forallb_forall in O. specialize (O k K).
    rewrite Forall_flat_map, Forall_forall in C. specialize (C k K). rewrite Forall_forall in R. specialize (R k K).
    unfold member_comments in C. rewrite Forall_app in C. destruct C as (C1 & C2). unfold process_member.
    assert (T := member_ok_type k O).
    rewrite (proj2 (process_type_ok _ T) R). cbn [bind]. rewrite (proj2 (check_comment_opt_ok true _) C1). cbn [bind].
    assert (W : match m_with k with Some w => process_wcomps w | None => Ok tt end = Ok tt).
    { destruct (m_with k); [apply process_wcomps_ok, C2|reflexivity]. }
    rewrite W. cbn [bind]. apply within_assert. reflexivity. }
  intros d O C D. destruct d as [n c l|n c l|n c l|n t c]; cbn [process_definition definition_comments definition_sound] in *.
  1,2: rewrite Forall_app in C; destruct C as (C1 & C2); rewrite (proj2 (check_comment_opt_ok false _) C1); cbn [bind];
    apply within_bind; [|intros; exact I]; apply M; try assumption;
    unfold definition_ok in O; repeat (apply andb_prop in O; destruct O as [O ?]); assumption.
  - destruct (proj2 (process_definition_ok (DEnumerated n c l) O)) as (d' & E); [split; assumption|]. cbn [process_definition] in E. rewrite E. exact I.
  - assert (T : type_ok t = true) by (unfold definition_ok in O; repeat (apply andb_prop in O; destruct O as [O ?]); assumption).
    rewrite (proj2 (process_type_ok _ T) D). cbn [bind]. rewrite (proj2 (check_comment_opt_ok false _) C). cbn [bind].
    apply within_bind; [apply within_assert; reflexivity|]. intros _ _. apply within_bind; [|intros; exact I].
    unfold check_posix. destruct (posix_range n) as [[pb pe]|]; [|exact I]. destruct (type_begin t); [|reflexivity]. destruct (type_end t); [|reflexivity].
    apply within_assert. reflexivity.
Qed.

Theorem sound_module : forall m, grammatical m = true -> module_sound m -> ~ module_valid m -> parse_module m = Err ConsistencyError.
Proof.
  intros m G (C & D) V.
  assert (N : ~ exists m', parse_module m = Ok m') by (rewrite module_accepted_iff; assumption).
  assert (W : within is_consistency (parse_module m)).
  { unfold module_comments in C. rewrite !Forall_app in C. destruct C as (C1 & C2 & C3 & C4). unfold parse_module.
    rewrite (proj2 (check_comment_opt_ok false _) C1). cbn [bind].
    assert (Himp : for_each process_import (mod_imports m) = Ok tt).
    { rewrite for_each_ok. rewrite Forall_flat_map in C2. eapply Forall_impl; [|exact C2]. intros i Hi. apply check_comment_opt_ok. exact Hi. }
    rewrite Himp. cbn [bind]. rewrite (proj2 (check_comment_opt_ok false _) C3). cbn [bind].
    apply within_bind.
    - apply within_map_result. intros d Hd. rewrite Forall_flat_map, Forall_forall in C4. rewrite Forall_forall in D.
      apply sound_definition; auto. eapply grammatical_defs; eassumption.
    - intros ds _. apply within_bind; [|intros; exact I].
 destruct (used_types_outcome (mkmodule (mod_name m) (mod_comment m) (mod_imports m) (mod_comment_import m) ds)) as [-> | ->]; [exact I|reflexivity]. }
  destruct (parse_module m) as [m'|e|]; cbn in W; [destruct N; eauto|rewrite W; reflexivity|contradiction].
Qed.

Lemma comment_other : forall k c, within is_other (check_comment_opt k c).
Proof.
  intros k [c|]; [|exact I]. cbn [check_comment_opt]. unfold check_comment. destruct (String.eqb _ _); [exact I|].
  destruct (_ || _ || _); [|exact I]. destruct k; cbn; unfold is_other; discriminate.
Qed.
Lemma type_other : forall t, within is_other (process_type t).
Proof.
  assert (A : forall t, within is_other (asn1_type t)).
  { intros t. unfold asn1_type. apply within_bind.
    - destruct (type_begin t); [|exact I]. destruct (type_end t); [|exact I]. apply within_assert. unfold is_other. discriminate.
    - intros _ _. destruct (posix_range _).
      + repeat (match goal with |- context [if ?x then _ else _] => destruct x end; [exact I|]). exact I.
      + generalize (type_begin t) as b, (type_end t) as e. intros b e.
        destruct (String.eqb _ "INTEGER"), b as [b|], e as [e|]; try (destruct (num_le _ _); exact I);
        (destruct (String.eqb _ "REAL");
          [try (destruct (_ && _); [exact I|]; destruct (_ && _); [exact I|]; cbn; unfold is_other; discriminate)|];
         (destruct (String.eqb _ "BOOLEAN"); [exact I|]; destruct t; exact I)). }
  induction t; cbn [process_type]; (apply within_bind; [first [exact I|assumption]|]; intros _ _; apply within_bind; [apply A|intros; exact I]).
Qed.
Lemma clause_other : forall w, within is_other (process_wcomps w).
Proof.
  fix IH 1. intros [c l]. cbn [process_wcomps]. apply within_bind; [apply comment_other|]. intros _ _.
  induction l as [|[k v kc] l IHl]; [exact I|]. apply within_bind; [|intros; exact IHl].
  cbn [process_witem]. apply within_bind; [|intros; apply comment_other]. destruct v; [exact I..|apply IH].
Qed.
Lemma enumerated_other : forall l, within is_other (check_enumerated l).
Proof.
  intros l. destruct (check_enumerated_total l) as [(l' & H)|H]; rewrite H; [exact I|]. cbn. unfold is_other. discriminate.
Qed.
Lemma consistent_definition : forall d, definition_ok d = true -> definition_consistent d -> within is_other (process_definition d).
Proof.
  assert (M : forall l, forallb member_ok l = true -> Forall (fun k => element (m_type k) <> TNull) l -> within is_other (for_each process_member l)).
  { intros l O R. apply within_for_each. intros k K. rewrite forallb_forall in O. specialize (O k K).
    rewrite Forall_forall in R. specialize (R k K). unfold process_member. assert (T := member_ok_type k O).
    apply within_bind; [apply type_other|]. intros _ _. apply within_bind; [apply comment_other|]. intros _ _.
    apply within_bind; [destruct (m_with k); [apply clause_other|exact I]|]. intros _ _.
    rewrite (proj2 (null_check_ok _ T) R). exact I. }
  intros d O D. destruct d as [n c l|n c l|n c l|n t c]; cbn [process_definition definition_consistent] in *.
  1,2: apply within_bind; [apply comment_other|]; intros _ _; apply within_bind; [|intros; exact I]; apply M; try assumption;
    unfold definition_ok in O; repeat (apply andb_prop in O; destruct O as [O ?]); assumption.
  - apply within_bind; [apply comment_other|]; intros _ _. apply within_bind; [apply within_for_each; intros e _; apply comment_other|]. intros _ _.
    apply within_bind; [apply enumerated_other|intros; exact I].
  - assert (T : type_ok t = true) by (unfold definition_ok in O; repeat (apply andb_prop in O; destruct O as [O ?]); assumption).
    destruct D as (D1 & D2).
    apply within_bind; [apply type_other|]. intros _ _. apply within_bind; [apply comment_other|]. intros _ _.
    rewrite (proj2 (null_check_ok _ T) D1). cbn [bind]. rewrite (proj2 (check_posix_ok _ _) D2). exact I.
Qed.
Theorem consistent_module : forall m, grammatical m = true -> module_consistent m -> ~ module_valid m ->
  exists e, parse_module m = Err e /\ e <> ConsistencyError.
Proof.
  intros m G (D & T) V.
  assert (N : ~ exists m', parse_module m = Ok m') by (rewrite module_accepted_iff; assumption).
  assert (W : within is_other (parse_module m)).
  { unfold parse_module. apply within_bind; [apply comment_other|]. intros [] C1.
    apply within_bind; [apply within_for_each; intros i _; apply comment_other|]. intros [] C2.
    apply within_bind; [apply comment_other|]. intros [] C3.
    apply within_bind.
    - apply within_map_result. intros d Hd. rewrite Forall_forall in D. apply consistent_definition; auto. eapply grammatical_defs; eassumption.
    - intros ds Hds. exfalso. apply V.
      assert (Hx : exists ds, map_result process_definition (mod_defs m) = Ok ds) by eauto.
      rewrite map_result_exists, Forall_forall in Hx.
      assert (Hy : forall d, In d (mod_defs m) -> Forall clean (definition_comments d) /\ definition_valid d).
      { intros d Hd. apply process_definition_ok; [eapply grammatical_defs; eassumption|auto]. }
      split; [|split; [apply Forall_forall; intros d Hd; apply Hy, Hd|exact T]].
      unfold module_comments. rewrite !Forall_app, !Forall_flat_map. apply check_comment_opt_ok in C1, C3. rewrite for_each_ok in C2.
      repeat split; try assumption.
      + eapply Forall_impl; [|exact C2]. intros i Hi. apply check_comment_opt_ok in Hi. exact Hi.
      + apply Forall_forall. intros d Hd. apply Hy, Hd. }
  destruct (parse_module m) as [m'|e|]; cbn in W; [destruct N; eauto|eauto|contradiction].
Qed.

(** ** Bundles *)
Lemma wcomps_consistency : forall seqs w n, within is_consistency (check_wcomps seqs n w).
Proof.
  intros seqs. fix IH 1. intros [c l] n. cbn [check_wcomps].
  destruct (sequences_named seqs n) as [|s [|s' r]]; [apply within_assert; reflexivity| |apply within_assert; reflexivity].
  induction l as [|[k v kc] l IHl]; [exact I|]. apply within_bind; [apply within_assert; reflexivity|]. intros [] K.
  apply within_bind; [|intros _ _; exact IHl]. destruct v as [z|f|b|w]; [exact I..|].
  destruct (find _ _) eqn:F; [apply IH|]. exfalso. apply assert_ok, mem_In, in_map_iff in K as (m & <- & K).
  apply (find_none _ _ F) in K. rewrite String.eqb_refl in K. discriminate.
Qed.
Lemma validate_consistency : forall b, within is_consistency (validate_bundle b).
Proof.
  intros b. unfold validate_bundle, check_imported_types_and_components. apply within_bind.
  - apply within_bind.
    + apply within_for_each. intros bm _. apply within_for_each. intros i _. destruct (nth_error _ _); [apply within_assert; reflexivity|exact I].
    + intros _ _. apply within_for_each. intros d _. apply within_for_each. intros k _. destruct (m_with k); [apply wcomps_consistency|exact I].
  - intros _ _. generalize (@nil string). induction (all_defs b) as [|d l IH]; intros seen; cbn [check_duplicates]; [exact I|].
    destruct (mem _ _); [reflexivity|apply IH].
Qed.
Lemma build_syntax : forall ms, within (eq SyntaxErr) (build ms).
Proof.
  intros ms. unfold build. apply within_bind; [|intros; exact I]. apply within_for_each. intros n _.
  destruct (last_index n ms) as [i|]; [|exact I]. destruct (nth_error ms i); [apply within_assert; reflexivity|exact I].
Qed.
Lemma not_missing : forall ms, ~ import_missing ms <-> forall m, In m ms -> incl (dependencies m) (map mod_name ms).
Proof.
  intros ms. split.
  - intros N m M n H. unfold dependencies in H. apply in_map_iff in H as (it & <- & H).
    destruct (in_dec string_dec (imp_module it) (map mod_name ms)) as [Y|Y]; [exact Y|]. destruct N. exists m, it. auto.
  - intros H (m & it & M & J & K). apply K, (H m M). unfold dependencies. apply in_map, J.
Qed.
Theorem bundle_rejected : forall names input, Forall (fun m => grammatical m = true) input -> Forall module_valid input -> ~ bundle_valid names input ->
  (~ NoDup (map mod_name input) \/ ~ NoDup names \/ ~ import_missing input -> build_from_config names input = Err ConsistencyError)
  /\ (NoDup (map mod_name input) -> NoDup names -> import_missing input -> build_from_config names input = Err SyntaxErr).
Proof.
  intros names input Hg Hv B.
  assert (N : ~ exists b, build_from_config names input = Ok b) by (rewrite bundle_accepted_iff; assumption).
  destruct (proj2 (parse_modules_iff input Hg) Hv) as (ms & Hp). assert (Hs := parse_modules_same _ _ Hp).
  unfold build_from_config in *. rewrite Hp in *. cbn [bind] in *.
  assert (U := validate_unique_ok ms names). rewrite (same_module_names _ _ Hs) in U.
  assert (Hi : import_missing ms <-> import_missing input).
  { unfold import_missing. rewrite (same_module_names _ _ Hs). split; intros (m & it & M & J & K).
    - destruct (Forall2_in_r _ _ _ _ _ _ Hs M) as (m0 & M0 & (_ & _ & E & _)). exists m0, it. rewrite <- E. auto.
    - destruct (Forall2_in_l _ _ _ _ _ _ Hs M) as (m0 & M0 & (_ & _ & E & _)). exists m0, it. rewrite E. auto. }
  destruct (validate_unique_module_names ms names) as [[]|e|] eqn:Q.
  - destruct (proj1 U eq_refl) as (U1 & U2). cbn [bind] in *.
    assert (Nm : NoDup (map mod_name ms)) by (rewrite (same_module_names _ _ Hs); exact U1).
    assert (Bi := build_iff ms Nm). rewrite <- not_missing, Hi in Bi. assert (W := build_syntax ms). split.
    + intros [X|[X|X]]; [contradiction..|]. destruct (proj2 Bi X) as (b & E). rewrite E in *. cbn [bind] in *.
      assert (Wb := validate_consistency b). destruct (validate_bundle b) as [[]|e|]; cbn in Wb; [|rewrite Wb; reflexivity|contradiction].
      cbn [bind] in *. unfold check_missing_modules, assert in *. destruct (_ && _); [|reflexivity]. cbn [bind] in N. destruct N. eauto.
    + intros _ _ X. destruct (build ms) as [b|e|]; cbn in W; [|subst; reflexivity|contradiction]. exfalso. apply Bi in X; eauto.
  - unfold validate_unique_module_names, assert in Q. destruct (_ && _); [discriminate|]. injection Q as <-. cbn [bind]. split; [reflexivity|].
    intros A1 A2. exfalso. assert (X : Err (A := unit) ConsistencyError = Ok tt) by (apply U; auto). discriminate.
  - unfold validate_unique_module_names, assert in Q. destruct (_ && _); discriminate.
Qed.

(** ** Runs *)
Theorem reported_bundle : forall fuel cwd words t a dir names ms, command_line words a dir -> config_command names (command_of a) ->
  Forall2 (path_spells t cwd) (input_paths a) ms -> Forall module_valid ms -> ~ bundle_valid names ms ->
  (~ NoDup (map mod_name ms) \/ ~ NoDup names \/ ~ import_missing ms -> start_in fuel cwd words t = (t, Some Reported))
  /\ (NoDup (map mod_name ms) -> NoDup names -> import_missing ms -> start_in fuel cwd words t = (t, Some (Raised SyntaxErr))).
Proof.
  intros fuel cwd words t a dir names ms H Hc F Hv B. rewrite (start_in_reads _ _ _ _ _ _ _ H F), (run_in_config names) by exact Hc.
  assert (G := paths_grammatical _ _ _ _ F). destruct (bundle_rejected names ms G Hv B) as (A1 & A2). split.
  - intros X. rewrite (A1 X). reflexivity.
  - intros X Y Z. rewrite (A2 X Y Z). reflexivity.
Qed.

Lemma map_result_first : forall A B (f : A -> result B) a x r ys e, map_result f a = Ok ys -> f x = Err e -> map_result f (a ++ x :: r) = Err e.
Proof.
  induction a as [|y a IH]; intros x r ys e H E; cbn [app map_result] in *; [rewrite E; reflexivity|].
  destruct (f y) as [z|z|]; [|discriminate..]. cbn [bind] in *. destruct (map_result f a) as [zs|w|] eqn:Q; [|discriminate..].
  rewrite (IH x r _ e eq_refl E). reflexivity.
Qed.
Lemma parse_texts_ok : forall ts ms, map_result read_text ts = Ok ms -> parse_texts ts = parse_modules ms.
Proof.
  unfold parse_texts, parse_modules. induction ts as [|s ts IH]; intros ms H; cbn [map_result] in *; [injection H as <-; reflexivity|].
  destruct (read_text s) as [m|e|] eqn:R; [|discriminate..]. cbn [bind] in H. destruct (map_result read_text ts) as [l|e|]; [|discriminate..].
  cbn [bind] in H. injection H as <-. cbn [map_result]. unfold parse_text at 1. rewrite R. cbn [bind].
  destruct (parse_module m); [|reflexivity..]. cbn [bind]. rewrite (IH l eq_refl). reflexivity.
Qed.
Theorem first_fault : forall fuel cwd words t a dir names pa p pr ma m e, command_line words a dir -> config_command names (command_of a) ->
  input_paths a = pa ++ p :: pr -> Forall2 (path_spells t cwd) pa ma -> Forall module_valid ma -> path_spells t cwd p m ->
  Forall (fun q => exists f, path_file t cwd q f /\ is_utf8 f) pr -> parse_module m = Err e ->
  start_in fuel cwd words t = (t, Some (caught e)).
Proof.
  intros fuel cwd words t a dir names pa p pr ma m e H Hc E F V P R Q.
  assert (Ga := paths_grammatical _ _ _ _ F). apply paths_modules in F as (ta & Ra & Ta).
  destruct P as (f & s & Pf & Pt & Ps).
  assert (Tr : exists tr, Forall2 (fun p s => exists f, path_file t cwd p f /\ text_of_file f s) pr tr).
  { clear -R. induction R as [|q pr (f & K & U) R (tr & IH)]; [exists []; constructor|]. exists (universal_newlines f :: tr). constructor; [|exact IH].
    exists f. split; [exact K|]. split; [exact U|]. apply lines_iff. reflexivity. }
  destruct Tr as (tr & Tr).
  assert (Rd : read_inputs t cwd (input_paths a) = inl (ta ++ s :: tr)).
  { apply read_inputs_iff. rewrite E. apply read_inputs_iff in Ra. apply Forall2_app; [exact Ra|]. constructor; [exists f; auto|exact Tr]. }
  apply read_text_ok in Ps.
  assert (Pt2 : parse_texts (ta ++ s :: tr) = Err e).
  { destruct (proj2 (parse_modules_iff ma Ga) V) as (ms & Hp). eapply map_result_first; [rewrite <- Hp; apply parse_texts_ok, Ta|].
    unfold parse_text. rewrite Ps. exact Q. }
  unfold start_in. rewrite (proj2 (parse_args_iff _ _ _) H), Rd. unfold on_modules.
  assert (Rj : forall e, rejection (command_of a) e = caught e) by (intros x; destruct Hc as [->|[->|(y & ->)]]; reflexivity).
  destruct (map_result read_text (ta ++ s :: tr)) as [ms|x|] eqn:T.
  - rewrite (run_in_config names) by exact Hc. unfold build_from_config.
    rewrite <- (parse_texts_ok _ _ T), Pt2. reflexivity.
  - rewrite Pt2, Rj. reflexivity.
  - exfalso. revert T. apply map_result_total. intros z. unfold read_text. destruct (Grammar.read_module z); discriminate.
Qed.
Theorem reported_module : forall fuel cwd words t a dir names pa p pr ma m, command_line words a dir -> config_command names (command_of a) ->
  input_paths a = pa ++ p :: pr -> Forall2 (path_spells t cwd) pa ma -> Forall module_valid ma -> path_spells t cwd p m ->
  Forall (fun q => exists f, path_file t cwd q f /\ is_utf8 f) pr -> ~ module_valid m ->
  (module_sound m -> start_in fuel cwd words t = (t, Some Reported))
  /\ (module_consistent m -> exists e, e <> ConsistencyError /\ start_in fuel cwd words t = (t, Some (Raised e))).
Proof.
  intros fuel cwd words t a dir names pa p pr ma m H Hc E F V P R N.
  assert (G : grammatical m = true) by (destruct P as (f & s & _ & _ & S); eapply Grammatical_proofs.spells_grammatical, S).
  split; intros S.
  - rewrite (first_fault fuel cwd words t a dir names pa p pr ma m _ H Hc E F V P R (sound_module m G S N)). reflexivity.
  - destruct (consistent_module m G S N) as (e & Q & D). exists e. split; [exact D|].
    rewrite (first_fault fuel cwd words t a dir names pa p pr ma m _ H Hc E F V P R Q). destruct e; try reflexivity. contradiction.
Qed.

(** Only the faults of an input are reported, and not by cosmos. *)
Lemma ending_not_reported : forall r, ending_of r <> Reported.
Proof. intros [[]|e|]; discriminate. Qed.
Theorem reported_only : forall fuel cwd words t t', start_in fuel cwd words t = (t', Some Reported) ->
  t' = t /\ exists a dir names, command_line words a dir /\ config_command names (command_of a)
    /\ forall ms, Forall2 (path_spells t cwd) (input_paths a) ms -> ~ bundle_valid names ms.
Proof.
  intros fuel cwd words t t' H. unfold start_in in H. destruct (parse_args words) as [[a dir]|] eqn:P; [|discriminate].
  assert (Q := P). apply parse_args_iff in Q.
  destruct (read_inputs t cwd (input_paths a)) as [ts|x] eqn:R.
  2:{ exfalso. injection H as _ ->. revert R. induction (input_paths a) as [|p ps IH]; cbn [read_inputs]; [discriminate|].
      destruct (path_exists t cwd p); [|discriminate]. destruct (read_path t cwd p) as [f|]; [|discriminate]. destruct (decode_file f); [|discriminate].
      destruct (read_inputs t cwd ps); [discriminate|]. intros R. injection R as ->. apply IH. reflexivity. }
  assert (Hc : (exists names, config_command names (command_of a)) \/ exists m l o, command_of a = GenerateCosmos m l o).
  { destruct (command_of a) as [m l o|n|n|n e]; [right; eauto|left; exists n..]; unfold config_command; eauto. }
  assert (If : forall d o u, into_folder t cwd d o <> (u, Reported)).
  { intros d o u. unfold into_folder. destruct (make_folder t cwd d) as [t1 [e|]]; [discriminate|].
    destruct (write_files t1 cwd d (fst o)) as [t2 [e|]]; [discriminate|]. intros X. injection X as _ X. exact (ending_not_reported _ X). }
  unfold on_modules in H. destruct (map_result read_text ts) as [ms|e|] eqn:T.
  - destruct Hc as [(names & Hc)|(m & l & o & Hc)].
    + rewrite (run_in_config names) in H by exact Hc.
      assert (F : Forall2 (path_spells t cwd) (input_paths a) ms) by (apply paths_modules; eauto).
      assert (G := paths_grammatical _ _ _ _ F).
      destruct (build_from_config names ms) as [b|e|] eqn:E; cbn [on_bundle] in H.
      * exfalso. destruct (into_folder t cwd dir _) as [u x] eqn:X in H. injection H as _ ->. exact (If _ _ _ X).
      * injection H as <- H. split; [reflexivity|]. exists a, dir, names. split; [exact Q|]. split; [exact Hc|].
        intros ms' F' V. apply paths_modules in F' as (ts' & R' & T'). rewrite R in R'. injection R' as <-. rewrite T in T'. injection T' as <-.
        apply bundle_accepted_iff in V as (b & V); [congruence|exact G].
      * discriminate.
    + exfalso. rewrite Hc in H. cbn [run_in] in H. destruct (build_from_cosmos_config ms) as [b|e|]; [|discriminate..].
      destruct (generate_cosmos fuel b m l o) as [f|e|]; [|discriminate..]. unfold into_file in H.
      destruct (make_folder _ _ _) as [t1 [e|]]; [discriminate|]. destruct (write_path _ _ _ _ _) as [t2 [e|]]; discriminate.
  - destruct Hc as [(names & Hc)|(m & l & o & Hc)]; [|rewrite Hc in H; discriminate].
    injection H as <- _. split; [reflexivity|]. exists a, dir, names. split; [exact Q|]. split; [exact Hc|].
    intros ms' F' V. apply paths_modules in F' as (ts' & R' & T'). rewrite R in R'. injection R' as <-. congruence.
  - exfalso. revert T. apply map_result_total. intros z. unfold read_text. destruct (Grammar.read_module z); discriminate.
Qed.

(** Files are decoded before any is parsed. *)
Theorem undecodable : forall fuel cwd words t a dir pa p pr f, command_line words a dir -> input_paths a = pa ++ p :: pr ->
  Forall (fun q => exists g, path_file t cwd q g /\ is_utf8 g) pa -> path_file t cwd p f -> ~ is_utf8 f ->
  start_in fuel cwd words t = (t, Some (Raised UnicodeDecodeErr)).
Proof.
  intros fuel cwd words t a dir pa p pr f H E F P N. unfold start_in. rewrite (proj2 (parse_args_iff _ _ _) H), E.
  assert (R : read_inputs t cwd (pa ++ p :: pr) = inr (Raised UnicodeDecodeErr)); [|rewrite R; reflexivity].
  assert (One : forall q g, path_file t cwd q g -> path_exists t cwd q = true /\ read_path t cwd q = inl g).
  { intros q g Q. apply path_file_iff in Q as (Ne & l & W & A). unfold path_exists, read_path. rewrite W. unfold file_at in A. rewrite A.
    apply String.eqb_neq in Ne. rewrite Ne. auto. }
  clear E. induction F as [|q pa (g & G & U) F IH]; cbn [app read_inputs].
  - destruct (One _ _ P) as (-> & ->). apply decode_fails in N. rewrite N. reflexivity.
  - destruct (One _ _ G) as (-> & ->). destruct (decode_file g) eqn:D; [|apply decode_fails in D; contradiction]. rewrite IH. reflexivity.
Qed.
