(** * Proofs about the messages of the checks *)
From Coq Require Import Lia Sorting.Sorted.
From Verif Require Import Base PyStr PyNum Ast Size Grammar Processor Bundle CCommon GenCfs GenC GenBinary GenCosmos Main Source Spec_Grammar Spec_Syntax Spec_Utf8
  Spec_Source Cli Spec_Cli Tree Messages Spec_Tree Lib_proofs Str_proofs Spec_Gen Spec_Files Spec_Enum Spec_Num Spec_Check Spec_Bundle Spec_Report Enum_proofs Check_proofs
   Syntax3_proofs Bundle_proofs Reject_proofs Field_proofs Source_proofs Run_proofs Ends_proofs Files_proofs Note_proofs
  Cli_proofs Start_proofs Tree_proofs Tree2_proofs Tree3_proofs Report_proofs Spec_Message.
Open Scope string_scope.
Open Scope list_scope.

(** ** The same outcomes *)
Lemma forget_then : forall A B (r : said A) (f : A -> said B), forget (then_ r f) = bind (forget r) (fun a => forget (f a)).
Proof. intros A B [a|e t] f; reflexivity. Qed.
Lemma forget_demand : forall b e t, forget (demand b e t) = assert b e.
Proof. intros [] e t; reflexivity. Qed.
Lemma forget_each : forall A (f : A -> said unit) g l, (forall x, In x l -> forget (f x) = g x) -> forget (each f l) = for_each g l.
Proof.
  induction l as [|x l IH]; intros H; cbn [each for_each]; [reflexivity|]. rewrite forget_then, (H x) by (left; reflexivity).
  destruct (g x); [|reflexivity..]. cbn [bind]. apply IH. intros y Y. apply H. right. exact Y.
Qed.
Lemma forget_map : forall A B (f : A -> said B) g l, (forall x, In x l -> forget (f x) = g x) -> forget (map_said f l) = map_result g l.
Proof.
  induction l as [|x l IH]; intros H; cbn [map_said map_result]; [reflexivity|]. rewrite forget_then, (H x) by (left; reflexivity).
  destruct (g x); [|reflexivity..]. cbn [bind]. rewrite forget_then, IH by (intros y Y; apply H; right; exact Y).
  destruct (map_result g l); reflexivity.
Qed.
Lemma forget_if : forall A (b : bool) (x y : said A), forget (if b then x else y) = if b then forget x else forget y.
Proof. intros A [] x y; reflexivity. Qed.

Lemma forget_asn1_type : forall t, forget (asn1_type_said t) = asn1_type t.
Proof.
  intros t. unfold asn1_type_said. rewrite forget_then.
  assert (H : forall x, match asn1_type t with Ok c => Good c | Err e => Bad e (Some x) | OutOfFuel => Good None end
    = match asn1_type t with Ok c => Good c | Err e => Bad e (Some x) | OutOfFuel => Bad ValueErr None end).
  { intros x. assert (W := type_other t). destruct t; cbn [process_type] in W; destruct (asn1_type _) eqn:E; try reflexivity; try (cbn in W; contradiction).
    exfalso. clear -E. unfold asn1_type in E. cbn in E. repeat (match type of E with context [if ?b then _ else _] => destruct b | context [match ?b with _ => _ end] => destruct b end; try discriminate E). }
  destruct (type_begin t) as [b|] eqn:B, (type_end t) as [e|] eqn:E.
  1:{ rewrite forget_demand. unfold asn1_type at 2. rewrite B, E. unfold assert. destruct (negb _) eqn:N; [|reflexivity]. cbn [bind].
      destruct (asn1_type t) as [c|x|] eqn:Q; cbn [forget].
      - rewrite <- Q. unfold asn1_type. rewrite B, E. unfold assert. rewrite N. reflexivity.
      - rewrite <- Q. unfold asn1_type. rewrite B, E. unfold assert. rewrite N. reflexivity.
      - specialize (H ""). discriminate. }
  all: cbn [forget bind]; destruct (asn1_type t) as [c|x|] eqn:Q; [reflexivity..|]; specialize (H ""); discriminate.
Qed.
Lemma forget_process_type : forall t, forget (process_type_said t) = process_type t.
Proof.
  induction t; cbn [process_type_said process_type]; rewrite forget_then, ?IHt.
  6: destruct (process_type t); [|reflexivity..].
  all: cbn [forget bind]; rewrite forget_then, forget_asn1_type; reflexivity.
Qed.
Definition has_key (k : option string) : bool := match k with Some _ => true | None => false end.
Lemma forget_comment : forall k c, forget (comment_said k c) = check_comment_opt (has_key k) c.
Proof.
  intros k [c|]; [|reflexivity]. cbn [comment_said check_comment_opt]. unfold check_comment_said, check_comment.
  destruct (String.eqb _ _); [reflexivity|]. destruct k as [k|]; cbn [has_key];
    destruct (contains "[" _); [reflexivity| |reflexivity|]; (destruct (contains "]" _); [reflexivity|]); destruct (contains "--" _); reflexivity.
Qed.
Lemma forget_wcomps : forall w, forget (process_wcomps_said w) = process_wcomps w.
Proof.
  fix IH 1. intros [c l]. cbn [process_wcomps_said process_wcomps]. rewrite forget_then, forget_comment.
  cbn [has_key]. destruct (check_comment_opt false c); [|reflexivity..]. cbn [bind].
  induction l as [|[k v kc] l IHl]; [reflexivity|]. rewrite forget_then. cbn [process_witem_said process_witem].
  assert (V : forget (process_wval_said v) = process_wval v) by (destruct v; [reflexivity..|apply IH]).
  rewrite forget_then, V, forget_comment. cbn [has_key]. destruct (process_wval v); [|reflexivity..]. cbn [bind].
  destruct (check_comment_opt true kc); [|reflexivity..]. cbn [bind]. exact IHl.
Qed.
Lemma forget_posix : forall n t, forget (check_posix_said n t) = check_posix n t.
Proof.
  intros n t. unfold check_posix_said, check_posix. destruct (posix_range n) as [[pb pe]|]; [|reflexivity].
  destruct (type_begin t); [|reflexivity]. destruct (type_end t); [|reflexivity]. apply forget_demand.
Qed.
Lemma forget_member : forall k, forget (process_member_said k) = process_member k.
Proof.
  intros k. unfold process_member_said, process_member. rewrite forget_then, forget_process_type. destruct (process_type _); [|reflexivity..]. cbn [bind].
  rewrite forget_then, forget_comment. cbn [has_key]. destruct (check_comment_opt _ _); [|reflexivity..]. cbn [bind]. rewrite forget_then.
  assert (W : forget match m_with k with Some w => process_wcomps_said w | None => Good tt end = match m_with k with Some w => process_wcomps w | None => Ok tt end).
  { destruct (m_with k); [apply forget_wcomps|reflexivity]. }
  rewrite W. unfold null_check_said. rewrite forget_demand. reflexivity.
Qed.
Lemma forget_place : forall l s, forget (place_said l s) = Processor.place l s.
Proof.
  induction l as [|e l IH]; intros s; cbn [place_said Processor.place]; [reflexivity|].
  destruct (_ && _); [|reflexivity]. destruct (nth_error _ _) as [[x|]|]; [reflexivity| |reflexivity]. apply IH.
Qed.
Lemma forget_enumerated : forall l, forget (check_enumerated_said l) = check_enumerated l.
Proof.
  intros l. unfold check_enumerated_said, check_enumerated. destruct (_ =? _)%Z; [reflexivity|]. destruct (negb _); [reflexivity|].
  rewrite forget_then, forget_place. destruct (Processor.place _ _); [|reflexivity..]. cbn [bind]. apply forget_map. intros [x|] _; reflexivity.
Qed.
Lemma forget_definition : forall d, forget (process_definition_said d) = process_definition d.
Proof.
  intros [n c l|n c l|n c l|n t c]; cbn [process_definition_said process_definition].
  1,2: rewrite forget_then, forget_comment; cbn [has_key]; destruct (check_comment_opt _ _); [|reflexivity..]; cbn [bind];
    rewrite forget_then, (forget_each _ _ process_member) by (intros; apply forget_member); destruct (for_each _ _); reflexivity.
  - rewrite forget_then, forget_comment; cbn [has_key]; destruct (check_comment_opt _ _); [|reflexivity..]; cbn [bind].
    rewrite forget_then, (forget_each _ _ process_enum_item) by (intros; apply forget_comment). destruct (for_each _ _); [|reflexivity..]. cbn [bind].
    rewrite forget_then, forget_enumerated. destruct (check_enumerated l); reflexivity.
  - rewrite forget_then, forget_process_type. destruct (process_type _); [|reflexivity..]. cbn [bind].
    rewrite forget_then, forget_comment; cbn [has_key]; destruct (check_comment_opt _ _); [|reflexivity..]; cbn [bind].
    rewrite forget_then. unfold null_check_said, null_check. rewrite forget_demand. destruct (assert _ _); [|reflexivity..]. cbn [bind].
    rewrite forget_then, forget_posix. destruct (check_posix _ _); reflexivity.
Qed.
Lemma forget_used_types : forall m, forget (check_used_types_said m) = check_used_types_defined m.
Proof. intros m. apply forget_each. intros d _. apply forget_each. intros k _. apply forget_demand. Qed.
Lemma forget_module : forall m, forget (parse_module_said m) = parse_module m.
Proof.
  intros m. unfold parse_module_said, parse_module. rewrite forget_then, forget_comment; cbn [has_key]; destruct (check_comment_opt _ _); [|reflexivity..]; cbn [bind].
  rewrite forget_then, (forget_each _ _ process_import) by (intros; apply forget_comment). destruct (for_each _ _); [|reflexivity..]. cbn [bind].
  rewrite forget_then, forget_comment; cbn [has_key]; destruct (check_comment_opt _ _); [|reflexivity..]; cbn [bind].
  rewrite forget_then, (forget_map _ _ _ process_definition) by (intros; apply forget_definition). destruct (map_result _ _); [|reflexivity..]. cbn [bind].
  rewrite forget_then, forget_used_types. destruct (check_used_types_defined _); reflexivity.
Qed.

Definition items_said (seqs : list definition) (d : string) (ms : list member) : list witem -> said unit :=
  each (fun i => match i with WI k v _ =>
    let& _ := demand (mem k (map m_key ms)) ConsistencyError ("'" ++ k ++ "' in '" ++ d ++ "' is not a valid key")%string in
    match v with
    | VWith w' =>
        match find (fun m => String.eqb (m_key m) k) ms with
        | Some m => check_wcomps_said seqs d (type_name (m_type m)) w'
        | None => Bad IndexErr None
        end
    | _ => Good tt
    end end).
Lemma check_wcomps_said_eq : forall seqs d n c l,
  check_wcomps_said seqs d n (WC c l) =
  match sequences_named seqs n with
  | [s] => items_said seqs d (seq_children s) l
  | _ => demand (mem n PREDEFINED_LIST) ConsistencyError ("used type '" ++ n ++ "' in '" ++ d ++ "' is not defined")%string
  end.
Proof.
  intros seqs d n c l. cbn [check_wcomps_said]. destruct (sequences_named seqs n) as [|s [|s2 r]]; try reflexivity.
  unfold items_said. induction l as [|[k v kc] r IH]; [reflexivity|]. cbn [each]. rewrite <- IH. destruct (demand _ _ _); reflexivity.
Qed.
Lemma forget_clause : forall seqs d w n, forget (check_wcomps_said seqs d n w) = check_wcomps seqs n w.
Proof.
  intros seqs d. apply (clause_ind (fun w => forall n, forget (check_wcomps_said seqs d n w) = check_wcomps seqs n w)).
  intros c l IH n. rewrite check_wcomps_said_eq, check_wcomps_eq.
  destruct (sequences_named seqs n) as [|s [|s2 r]]; [apply forget_demand| |apply forget_demand].
  apply forget_each. intros [k v kc] K. rewrite forget_then, forget_demand. destruct (assert _ _); [|reflexivity..]. cbn [bind].
  destruct v as [z|f|b|w]; try reflexivity. destruct (find _ _); [|reflexivity]. exact (IH k w kc K _).
Qed.
Lemma forget_components : forall ds, forget (check_components_said ds) = check_used_components_defined ds.
Proof.
  intros ds. apply forget_each. intros d _. apply forget_each. intros k _. destruct (m_with k); [apply forget_clause|reflexivity].
Qed.

Lemma dict_get_mem : forall A n (l : list (string * A)), (exists x, dict_get n l = Some x) <-> mem n (map fst l) = true.
Proof.
  intros A n l. induction l as [|[k v] l IH]; cbn [dict_get map fst]; [split; [intros (x & H)|intros H]; discriminate|].
  change (mem n (k :: map fst l)) with (String.eqb n k || mem n (map fst l)). rewrite orb_true_iff, <- IH.
  destruct (dict_get n l) as [x|]; [split; eauto|]. destruct (String.eqb n k) eqn:E; [split; eauto|].
  split; [intros (x & H); discriminate|intros [H|(x & H)]; discriminate].
Qed.
Lemma forget_duplicates : forall l seen seen', map fst seen = seen' ->
  forget (check_duplicates_said seen (map (fun p => (def_name (fst p), snd p)) l)) = check_duplicates seen' (map fst l).
Proof.
  induction l as [|[d m] l IH]; intros seen seen' <-; cbn [map fst snd check_duplicates_said check_duplicates]; [reflexivity|].
  assert (D := dict_get_mem _ (def_name d) seen). destruct (dict_get (def_name d) seen) as [m0|].
  - rewrite (proj1 D (ex_intro _ _ eq_refl)). reflexivity.
  - destruct (mem _ _); [destruct (proj2 D eq_refl); discriminate|]. apply IH. reflexivity.
Qed.
Definition with_module (ms : list module) : list (definition * string) := flat_map (fun m => map (fun d => (d, mod_name m)) (mod_defs m)) ms.
Lemma located_eq : forall ms, located ms = map (fun p => (def_name (fst p), snd p)) (with_module ms).
Proof.
  intros ms. unfold located, with_module. induction ms as [|m ms IH]; [reflexivity|]. cbn [flat_map]. rewrite map_app, <- IH. f_equal.
  rewrite map_map. reflexivity.
Qed.
Lemma with_module_defs : forall ms, map fst (with_module ms) = flat_map mod_defs ms.
Proof.
  intros ms. unfold with_module. induction ms as [|m ms IH]; [reflexivity|]. cbn [flat_map]. rewrite map_app, IH. f_equal.
  rewrite map_map. cbn [fst]. apply map_id.
Qed.
Section Ordered.
Variable order : list string -> list string.
Hypothesis Ho : set_order order.

Lemma order_nil : forall l, order l = [] <-> l = [].
Proof.
  intros l. destruct (Ho l) as (_ & H). split; intros E.
  - destruct l as [|x l]; [reflexivity|]. rewrite E in H. destruct (proj2 (H x) (or_introl eq_refl)).
  - subst l. destruct (order []) as [|x r]; [reflexivity|]. destruct (proj1 (H x) (or_introl eq_refl)).
Qed.
Lemma forget_unique : forall ms names, forget (unique_names_said order ms names) = validate_unique_module_names ms names.
Proof.
  intros ms names. unfold unique_names_said, validate_unique_module_names.
  assert (A := order_nil (duplicates names)). assert (B := order_nil (duplicates (map mod_name ms))).
  destruct (order (duplicates names)) as [|x r].
  - rewrite (proj1 A eq_refl). destruct (order (duplicates (map mod_name ms))) as [|y s].
    + rewrite (proj1 B eq_refl). reflexivity.
    + destruct (duplicates (map mod_name ms)); [discriminate (proj2 B eq_refl)|reflexivity].
  - destruct (duplicates names); [discriminate (proj2 A eq_refl)|]. rewrite andb_false_r. reflexivity.
Qed.
Lemma forget_build : forall ms, forget (build_said order ms) = build ms.
Proof.
  intros ms. unfold build_said, build. rewrite forget_then. f_equal. apply forget_each. intros n _.
  destruct (last_index n ms); [|reflexivity]. destruct (nth_error _ _); [|reflexivity]. apply forget_demand.
Qed.
Lemma forget_imports : forall b, forget (check_imports_said order b) = check_imports b.
Proof.
  intros b. apply forget_each. intros bm _. apply forget_each. intros i _. destruct (nth_error _ _); [|reflexivity]. apply forget_demand.
Qed.
Lemma forget_validate : forall b, forget (validate_bundle_said order b) = validate_bundle b.
Proof.
  intros b. unfold validate_bundle_said, validate_bundle, check_imported_types_and_components.
  rewrite forget_then, forget_imports. destruct (check_imports b); [|reflexivity..]. cbn [bind].
  rewrite forget_then, forget_components. destruct (check_used_components_defined _); [|reflexivity..]. cbn [bind].
  rewrite located_eq, (forget_duplicates _ [] []) by reflexivity. rewrite with_module_defs. reflexivity.
Qed.
Lemma forget_missing : forall names b, forget (check_missing_said order names b) = check_missing_modules names b.
Proof.
  intros names b. unfold check_missing_said, check_missing_modules.
  assert (A := order_nil (set_diff names (module_names b))). assert (B := order_nil (set_diff (module_names b) names)).
  destruct (order (set_diff names (module_names b))) as [|x r].
  - rewrite (proj1 A eq_refl). destruct (order (set_diff (module_names b) names)) as [|y s].
    + rewrite (proj1 B eq_refl). reflexivity.
    + destruct (set_diff (module_names b) names); [discriminate (proj2 B eq_refl)|reflexivity].
  - destruct (set_diff names (module_names b)); [discriminate (proj2 A eq_refl)|]. rewrite andb_false_r. reflexivity.
Qed.
Lemma forget_bundle : forall names ms, forget (bundle_said order names ms) =
  (let* _ := validate_unique_module_names ms names in let* b := build ms in let* _ := validate_bundle b in
   let* _ := check_missing_modules names b in Ok b).
Proof.
  intros names ms. unfold bundle_said. rewrite forget_then, forget_unique. destruct (validate_unique_module_names _ _); [|reflexivity..]. cbn [bind].
  rewrite forget_then, forget_build. destruct (build ms) as [b|e|]; [|reflexivity..]. cbn [bind].
  rewrite forget_then, forget_validate. destruct (validate_bundle b); [|reflexivity..]. cbn [bind].
  rewrite forget_then, forget_missing. destruct (check_missing_modules names b); reflexivity.
Qed.
Lemma forget_text : forall s, forget (parse_text_said s) = parse_text s.
Proof.
  intros s. unfold parse_text_said, parse_text, read_text. destruct (read_module s); [|reflexivity]. cbn [bind]. apply forget_module.
Qed.
Theorem forget_config : forall names texts, forget (config_said order names texts) = on_modules texts Err (build_from_config names).
Proof.
  intros names texts. unfold config_said. rewrite forget_then, (forget_map _ _ _ parse_text) by (intros; apply forget_text).
  change (map_result parse_text texts) with (parse_texts texts). unfold on_modules. destruct (map_result read_text texts) as [ms|e|] eqn:R.
  - rewrite (parse_texts_ok _ _ R). unfold build_from_config. destruct (parse_modules ms); [|reflexivity..]. cbn [bind]. apply forget_bundle.
  - assert (W : exists e', parse_texts texts = Err e').
    { clear -R. revert e R. unfold parse_texts. induction texts as [|s ts IH]; intros e R; cbn [map_result] in *; [discriminate|].
      unfold parse_text at 1. destruct (read_text s) as [m|x|] eqn:S; cbn [bind] in *; [|eauto|discriminate].
      destruct (parse_module m) as [m'|x|] eqn:P; cbn [bind]; [|eauto|].
      - destruct (map_result read_text ts) as [l|x|]; [discriminate| |discriminate]. destruct (IH x eq_refl) as (e' & ->). eexists. reflexivity.
      - exfalso. rewrite <- forget_module in P. destruct (parse_module_said m); discriminate. }
    destruct W as (e' & ->). reflexivity.
  - exfalso. revert R. apply map_result_total. intros z. unfold read_text. destruct (Grammar.read_module z); discriminate.
Qed.
End Ordered.

(** ** The messages are true *)
Lemma each_bad : forall A (f : A -> said unit) l e t, each f l = Bad e t ->
  exists a x b, l = a ++ x :: b /\ (forall y, In y a -> f y = Good tt) /\ f x = Bad e t.
Proof.
  induction l as [|x l IH]; intros e t H; cbn [each] in H; [discriminate|]. destruct (f x) as [[]|e' t'] eqn:F; cbn [then_] in H.
  - destruct (IH e t H) as (a & y & b & -> & A1 & A2). exists (x :: a), y, b. split; [reflexivity|]. split; [|exact A2].
    intros z [<-|Z]; auto.
  - injection H as -> ->. exists [], x, l. split; [reflexivity|]. split; [intros y []|exact F].
Qed.
Lemma map_bad : forall A B (f : A -> said B) l e t, map_said f l = Bad e t ->
  exists a x b ys, l = a ++ x :: b /\ map_said f a = Good ys /\ f x = Bad e t.
Proof.
  induction l as [|x l IH]; intros e t H; cbn [map_said] in H; [discriminate|]. destruct (f x) as [y|e' t'] eqn:F; cbn [then_] in H.
  - destruct (map_said f l) as [zs|e' t'] eqn:M; cbn [then_] in H; [discriminate|]. injection H as -> ->.
    destruct (IH _ _ eq_refl) as (a & z & b & ys & -> & A1 & A2). exists (x :: a), z, b, (y :: ys). split; [reflexivity|]. split; [|exact A2].
    cbn [map_said]. rewrite F. cbn [then_]. rewrite A1. reflexivity.
  - injection H as -> ->. exists [], x, l, []. auto.
Qed.
Lemma then_bad : forall A B (r : said A) (f : A -> said B) e t, then_ r f = Bad e t ->
  r = Bad e t \/ exists a, r = Good a /\ f a = Bad e t.
Proof. intros A B [a|e' t'] f e t H; cbn [then_] in H; [right; eauto|left; congruence]. Qed.
Lemma demand_bad : forall b e x e' t, demand b e x = Bad e' t -> b = false /\ e' = e /\ t = Some x.
Proof. intros [] e x e' t H; [discriminate|]. injection H as <- <-. auto. Qed.
Lemma other_said : forall A (r : said A) t, within is_other (forget r) -> r <> Bad ConsistencyError t.
Proof. intros A r t W ->. apply W. reflexivity. Qed.
Lemma good_forget : forall A (r : said A) a, r = Good a <-> forget r = Ok a.
Proof. intros A [b|e t] a; cbn [forget]; split; congruence. Qed.

Lemma null_bad : forall ty t, type_ok ty = true -> null_check_said ty = Bad ConsistencyError t -> element ty = TNull /\ t = Some NULL_TEXT.
Proof.
  intros ty t O H. apply demand_bad in H as (N & _ & ->). split; [|reflexivity].
  assert (D : element ty = TNull \/ element ty <> TNull) by (destruct (element ty); auto; right; discriminate). destruct D as [D|D]; [exact D|].
  apply (null_check_ok _ O) in D. unfold null_check in D. apply assert_ok in D. congruence.
Qed.
Lemma posix_bad : forall n ty t, check_posix_said n ty = Bad ConsistencyError t ->
  ~ posix_ok n ty /\ t = Some ("Range " ++ bounds_shown ty ++ " doesn't match with the used POSIX definition (" ++ n ++ ").")%string.
Proof.
  intros n ty t H. split.
  - intros P. apply check_posix_ok in P. rewrite <- forget_posix, H in P. discriminate.
  - unfold check_posix_said in H. destruct (posix_range n) as [[pb pe]|]; [|discriminate].
    assert (T : t = Some ("Range [" ++ bound_text (type_begin ty) ++ " - " ++ bound_text (type_end ty)
              ++ "] doesn't match with the used POSIX definition (" ++ n ++ ").")%string).
    { destruct (type_begin ty), (type_end ty); [apply demand_bad in H as (_ & _ & ->); reflexivity|injection H as <-; reflexivity..]. }
    rewrite T. destruct ty as [[[b e]|]|[[b e]|]| | | | |]; cbn [type_begin type_end bound_text bounds_shown]; rewrite <- ?string_app_assoc; reflexivity.
Qed.
Lemma member_bad : forall k t, member_ok k = true -> process_member_said k = Bad ConsistencyError t -> element (m_type k) = TNull /\ t = Some NULL_TEXT.
Proof.
  intros k t O H. unfold process_member_said in H. apply then_bad in H as [H|([] & _ & H)].
  { exfalso. revert H. apply other_said. rewrite forget_process_type. apply type_other. }
  apply then_bad in H as [H|([] & _ & H)].
  { exfalso. revert H. apply other_said. rewrite forget_comment. apply comment_other. }
  apply then_bad in H as [H|([] & _ & H)].
  { exfalso. destruct (m_with k) as [w|]; [|discriminate]. revert H. apply other_said. rewrite forget_wcomps. apply clause_other. }
  apply null_bad; [apply member_ok_type, O|exact H].
Qed.
Lemma definition_bad : forall d t, definition_ok d = true -> process_definition_said d = Bad ConsistencyError t ->
  (exists ty, In ty (definition_types d) /\ element ty = TNull /\ t = Some NULL_TEXT)
  \/ exists n ty c, d = DSimple n ty c /\ element ty <> TNull /\ ~ posix_ok n ty
     /\ t = Some ("Range " ++ bounds_shown ty ++ " doesn't match with the used POSIX definition (" ++ n ++ ").")%string.
Proof.
  intros d t O H. destruct d as [n c l|n c l|n c l|n ty c]; cbn [process_definition_said definition_types] in *.
  1,2: apply then_bad in H as [H|([] & _ & H)];
    [exfalso; revert H; apply other_said; rewrite forget_comment; apply comment_other|];
    apply then_bad in H as [H|([] & _ & H)]; [|discriminate];
    apply each_bad in H as (a & k & b & E & _ & K); left; exists (m_type k);
    (assert (Ok : member_ok k = true) by (unfold definition_ok in O; repeat (apply andb_prop in O; destruct O as [O ?]);
      match goal with X : forallb member_ok _ = true |- _ => rewrite forallb_forall in X; apply X end; rewrite E; apply in_or_app; right; left; reflexivity));
    destruct (member_bad _ _ Ok K) as (A1 & A2); split; [apply in_map; rewrite E; apply in_or_app; right; left; reflexivity|auto].
  - exfalso. apply then_bad in H as [H|([] & _ & H)]; [revert H; apply other_said; rewrite forget_comment; apply comment_other|].
    apply then_bad in H as [H|([] & _ & H)].
    + apply each_bad in H as (a & k & b & _ & _ & K). revert K. apply other_said. rewrite forget_comment. apply comment_other.
    + apply then_bad in H as [H|(l' & _ & H)]; [|discriminate]. revert H. apply other_said. rewrite forget_enumerated. apply enumerated_other.
  - apply then_bad in H as [H|([] & _ & H)]; [exfalso; revert H; apply other_said; rewrite forget_process_type; apply type_other|].
    apply then_bad in H as [H|([] & _ & H)]; [exfalso; revert H; apply other_said; rewrite forget_comment; apply comment_other|].
    assert (T : type_ok ty = true) by (unfold definition_ok in O; repeat (apply andb_prop in O; destruct O as [O ?]); assumption).
    apply then_bad in H as [H|([] & N & H)].
    + left. exists ty. split; [left; reflexivity|]. apply null_bad; assumption.
    + apply then_bad in H as [H|([] & _ & H)]; [|discriminate]. right. exists n, ty, c. split; [reflexivity|].
      apply posix_bad in H as (P & ->). split; [|auto]. apply good_forget in N. unfold null_check_said in N. rewrite forget_demand in N.
      apply null_check_ok; assumption.
Qed.
Theorem module_bad : forall m t, grammatical m = true -> parse_module_said m = Bad ConsistencyError t -> exists text, t = Some text /\ module_says m text.
Proof.
  intros m t G H. unfold parse_module_said in H.
  apply then_bad in H as [H|([] & _ & H)]; [exfalso; revert H; apply other_said; rewrite forget_comment; apply comment_other|].
  apply then_bad in H as [H|([] & _ & H)].
  { exfalso. apply each_bad in H as (a & k & b & _ & _ & K). revert K. apply other_said. rewrite forget_comment. apply comment_other. }
  apply then_bad in H as [H|([] & _ & H)]; [exfalso; revert H; apply other_said; rewrite forget_comment; apply comment_other|].
  assert (Val : forall l ds, incl l (mod_defs m) -> map_said process_definition_said l = Good ds ->
    Forall definition_valid l /\ Forall2 (fun d d' => process_definition d = Ok d') l ds).
  { intros l ds L M. apply good_forget in M. rewrite (forget_map _ _ _ process_definition) in M by (intros; apply forget_definition).
    apply map_result_ok in M. split; [|exact M]. apply Forall_forall. intros d D.
    destruct (Forall2_in_l _ _ _ _ _ _ M D) as (d' & _ & P). apply process_definition_ok; [eapply grammatical_defs; [exact G|apply L, D]|eauto]. }
  apply then_bad in H as [H|(ds & M & H)].
  - apply map_bad in H as (a & d & b & ys & E & M & K). destruct (Val a ys) as (V & _); [rewrite E; intros z Z; apply in_or_app; auto|exact M|].
    assert (D : In d (mod_defs m)) by (rewrite E; apply in_or_app; right; left; reflexivity).
    destruct (definition_bad d t (grammatical_defs _ _ G D) K) as [(ty & A1 & A2 & ->)|(n & ty & c & -> & A1 & A2 & ->)]; eexists; split; try reflexivity.
    + exact (says_null m a d b ty E V A1 A2).
    + exact (says_posix m a n ty c b E V A1 A2).
  - destruct (Val (mod_defs m) ds (incl_refl _) M) as (V & F).
    apply then_bad in H as [H|([] & _ & H)]; [|discriminate]. apply each_bad in H as (a & d' & b & E & _ & H). cbn [mod_defs] in E.
    apply each_bad in H as (a1 & k & b1 & E1 & _ & H). apply demand_bad in H as (N & _ & ->). cbn [mod_name] in *. eexists. split; [reflexivity|].
    assert (D' : In d' ds) by (rewrite E; apply in_or_app; right; left; reflexivity).
    destruct (Forall2_in_r _ _ _ _ _ _ F D') as (d & D & P). apply process_definition_children in P as (P1 & _).
    assert (K : In k (members_of d)) by (rewrite members_of_eq, <- P1, E1; apply in_or_app; right; left; reflexivity).
    assert (O : type_ok (m_type k) = true) by (rewrite members_of_eq in K; exact (member_ok_type k (grammatical_members m d k G D K))).
    assert (Nn : element (m_type k) <> TNull).
    { rewrite Forall_forall in V. rewrite members_of_eq in K. exact (proj2 (definition_valid_members d k (V d D) K)). }
    assert (Kn := type_name_known (m_type k) (flatten (map imp_names (mod_imports m)) ++ map def_name ds) O Nn).
    assert (Ne : map def_name ds = defined_names m).
    { unfold defined_names. clear -F. induction F as [|x y l l' P F IH]; [reflexivity|]. cbn [map]. apply process_definition_children in P as (_ & -> & _). congruence. }
    assert (X : ~ In (type_name (m_type k)) (PREDEFINED_LIST ++ flatten (map imp_names (mod_imports m)) ++ map def_name ds)).
    { intros X. apply mem_In in X. unfold defined_types in N. cbn [mod_imports mod_defs] in N. congruence. }
    destruct (element (m_type k)) as [r|r| | |kk len|len ty|n] eqn:El;
      try (exfalso; apply X, Kn; intros n Y; discriminate).
    assert (T := says_undefined m d k n V D K El). unfold quoted in T. rewrite <- !string_app_assoc in T. rewrite (element_name _ _ El). apply T.
    + intros Y. apply X, Kn. intros n' Z. injection Z as <-. apply in_or_app. left. exact Y.
    + intros Y. apply X, Kn. intros n' Z. injection Z as <-. apply in_or_app. right. rewrite Ne. exact Y.
Qed.

(** ** Bundles *)
Lemma count_repeated : forall l n, (2 <= count n l)%nat <-> repeated l n.
Proof.
  intros l n. split.
  - intros H. assert (J : In n l) by (apply count_In; lia). apply in_split in J as (a & r & ->).
    assert (E : count n (a ++ n :: r) = (count n a + S (count n r))%nat).
    { unfold count. rewrite filter_app, app_length. cbn [filter]. rewrite String.eqb_refl. reflexivity. }
    rewrite E in H. destruct (in_dec string_dec n r) as [R|R].
    + apply in_split in R as (b & c & ->). exists a, b, c. reflexivity.
    + assert (~ (1 <= count n r)%nat) by (rewrite count_In; exact R). assert (A : In n a) by (apply count_In; lia).
      apply in_split in A as (b & c & ->). exists b, c, r. rewrite <- app_assoc. reflexivity.
  - intros (a & b & c & ->). unfold count. rewrite !filter_app, !app_length. cbn [filter]. rewrite String.eqb_refl. cbn [List.length].
    rewrite filter_app, app_length. cbn [filter]. rewrite String.eqb_refl. cbn [List.length]. lia.
Qed.
Lemma duplicates_In : forall l n, In n (duplicates l) <-> repeated l n.
Proof.
  intros l n. unfold duplicates. rewrite filter_In, Nat.ltb_lt, <- count_repeated. split; [intros (_ & H); lia|].
  intros H. split; [apply count_In; lia|lia].
Qed.
Lemma sequences_count : forall n ds, (List.length (sequences_named (filter is_sequence ds) n) <= count n (map def_name ds))%nat.
Proof.
  intros n. unfold sequences_named, count. induction ds as [|d ds IH]; [apply le_n|]. cbn [filter map].
  destruct (is_sequence d); cbn [filter]; rewrite (String.eqb_sym n); destruct (String.eqb (def_name d) n); cbn [List.length]; lia.
Qed.

Section Clause_bad.
Variable ds : list definition.
Variable d : string.
Hypothesis Hcap : forall d, In d ds -> is_name_capital (def_name d) = true.
Hypothesis Htypes : forall n c ms k, In (DSequence n c ms) ds -> In k ms -> type_ok (m_type k) = true /\ element (m_type k) <> TNull.

Lemma clause_bad : forall w t text, type_ok t = true -> element t <> TNull ->
  check_wcomps_said (filter is_sequence ds) d (type_name t) w = Bad ConsistencyError text ->
  exists t1 w1 s, contains_clause ds t w t1 w1 /\ element t1 = TName s
  /\ ((exists c l k v kc, In (DSequence s c l) ds /\ In (WI k v kc) (wc_items w1) /\ ~ In k (map m_key l)
        /\ text = Some (quoted k ++ " in " ++ quoted d ++ " is not a valid key")%string)
     \/ ((forall c l, ~ In (DSequence s c l) ds) \/ repeated (map def_name ds) s)
        /\ text = Some ("used type " ++ quoted s ++ " in " ++ quoted d ++ " is not defined")%string).
Proof.
  refine (clause_ind _ _).
  intros cm l IH t text Ht Hn H. rewrite check_wcomps_said_eq in H.
  assert (Q : forall x s, demand (mem (type_name t) PREDEFINED_LIST) ConsistencyError x = Bad ConsistencyError text ->
    s = type_name t -> element t = TName s /\ text = Some x).
  { intros x s D ->. apply demand_bad in D as (M & _ & ->). split; [|reflexivity]. assert (B := member_type_builtin t Ht Hn).
    assert (K : ~ In (type_name t) PREDEFINED_LIST) by (intros K; apply mem_In in K; congruence).
    destruct (element t) as [| | | | | |n] eqn:E; try (exfalso; apply K, B; intros (n' & X); discriminate).
    rewrite (element_name _ _ E). reflexivity. }
  assert (Qt : ("used type '" ++ type_name t ++ "' in '" ++ d ++ "' is not defined" = "used type " ++ quoted (type_name t) ++ " in " ++ quoted d ++ " is not defined")%string).
  { unfold quoted. rewrite <- !string_app_assoc. reflexivity. }
  destruct (sequences_named (filter is_sequence ds) (type_name t)) as [|s [|s2 r]] eqn:S.
  - destruct (Q _ _ H eq_refl) as (E & ->). exists t, (WC cm l), (type_name t). split; [constructor|]. split; [exact E|]. right.
    split; [|rewrite Qt; reflexivity]. left. intros c ms J.
    assert (X : In (DSequence (type_name t) c ms) []) by (rewrite <- S; apply sequences_named_In; eauto). destruct X.
  - assert (X : In s [s]) by (left; reflexivity). rewrite <- S in X. apply sequences_named_In in X as (c & ms & -> & J). cbn [seq_children] in H.
    assert (E : element t = TName (type_name t)) by exact (sequence_type t c _ ms ds Ht J Hcap eq_refl).
    apply each_bad in H as (a & [k v kc] & b & -> & _ & H). assert (K : In (WI k v kc) (a ++ WI k v kc :: b)) by (apply in_or_app; right; left; reflexivity).
    apply then_bad in H as [H|([] & _ & H)].
    + apply demand_bad in H as (M & _ & ->). exists t, (WC cm (a ++ WI k v kc :: b)), (type_name t). split; [constructor|]. split; [exact E|]. left.
      exists c, ms, k, v, kc. split; [exact J|]. split; [exact K|]. split; [intros Y; apply mem_In in Y; congruence|].
      unfold quoted. rewrite <- !string_app_assoc. reflexivity.
    + destruct v as [z|f|bb|w]; try discriminate. assert (F := find_first_member k ms). destruct (find _ ms) as [x|]; [|discriminate].
      destruct (first_member_In _ _ _ F) as (Fx & _). destruct (Htypes _ _ _ _ J Fx) as (T1 & T2).
      destruct (IH k w kc K (m_type x) text T1 T2 H) as (t1 & w1 & s & A1 & A2 & A3). exists t1, w1, s. split; [|auto].
      exact (clause_inside ds t _ c ms cm _ k w kc x t1 w1 E J K F A1).
  - destruct (Q _ _ H eq_refl) as (E & ->). exists t, (WC cm l), (type_name t). split; [constructor|]. split; [exact E|]. right.
    split; [|rewrite Qt; reflexivity]. right. apply count_repeated. assert (Z := sequences_count (type_name t) ds). rewrite S in Z. cbn [List.length] in Z. lia.
Qed.
Lemma sequence_bad : forall n c l k w text, In (DSequence n c l) ds -> n = d -> In k l -> m_with k = Some w ->
  check_wcomps_said (filter is_sequence ds) d (type_name (m_type k)) w = Bad ConsistencyError text ->
  exists t1 w1 s, clause_in ds d t1 w1 /\ element t1 = TName s
  /\ ((exists c l k v kc, In (DSequence s c l) ds /\ In (WI k v kc) (wc_items w1) /\ ~ In k (map m_key l)
        /\ text = Some (quoted k ++ " in " ++ quoted d ++ " is not a valid key")%string)
     \/ ((forall c l, ~ In (DSequence s c l) ds) \/ repeated (map def_name ds) s)
        /\ text = Some ("used type " ++ quoted s ++ " in " ++ quoted d ++ " is not defined")%string).
Proof.
  intros n c l k w text J -> K W H. destruct (Htypes _ _ _ _ J K) as (T1 & T2).
  destruct (clause_bad w (m_type k) text T1 T2 H) as (t1 & w1 & s & A1 & A2). exists t1, w1, s. split; [|exact A2].
  exists c, l, k, w. auto.
Qed.
End Clause_bad.

Lemma dict_get_In : forall A n (l : list (string * A)) x, dict_get n l = Some x -> In (n, x) l.
Proof.
  induction l as [|[k v] l IH]; intros x H; cbn [dict_get] in H; [discriminate|]. destruct (dict_get n l) as [y|].
  - injection H as ->. right. apply IH. reflexivity.
  - destruct (String.eqb n k) eqn:E; [|discriminate]. apply String.eqb_eq in E. subst k. injection H as ->. left. reflexivity.
Qed.
Lemma duplicates_bad : forall l seen e t, check_duplicates_said seen l = Bad e t ->
  exists a n m0 b m r, rev seen ++ l = a ++ (n, m0) :: b ++ (n, m) :: r
    /\ t = Some ("The type " ++ n ++ " was already defined in " ++ (if String.eqb m0 m then m0 else m0 ++ " and " ++ m))%string.
Proof.
  induction l as [|[n m] l IH]; intros seen e t H; cbn [check_duplicates_said] in H; [discriminate|].
  destruct (dict_get n seen) as [m0|] eqn:D.
  - injection H as <- <-. apply dict_get_In, in_rev, in_split in D as (a & b & E). exists a, n, m0, b, m, l. split; [|reflexivity].
    rewrite E, <- app_assoc. reflexivity.
  - destruct (IH _ _ _ H) as (a & n1 & m0 & b & m1 & r & E & T). exists a, n1, m0, b, m1, r. split; [|exact T].
    rewrite <- E. cbn [rev]. rewrite <- app_assoc. reflexivity.
Qed.
Lemma located_In : forall ms p, In p (located ms) -> exists m, In m ms /\ snd p = mod_name m /\ In (fst p) (defined_names m).
Proof.
  intros ms p H. apply in_flat_map in H as (m & M & H). apply in_map_iff in H as (x & <- & H). exists m. cbn [fst snd].
  split; [exact M|]. split; [reflexivity|]. unfold defined_names. apply (in_map def_name), H.
Qed.
Lemma located_split : forall ms a p b q r, located ms = a ++ p :: b ++ q :: r ->
  (exists m, In m ms /\ snd p = mod_name m /\ snd q = mod_name m /\ exists u v w, defined_names m = u ++ fst p :: v ++ fst q :: w)
  \/ (exists x m1 y m2 z, ms = x ++ m1 :: y ++ m2 :: z /\ snd p = mod_name m1 /\ snd q = mod_name m2
       /\ In (fst p) (defined_names m1) /\ In (fst q) (defined_names m2)).
Proof.
  assert (One : forall m p, In p (map (fun d => (def_name d, mod_name m)) (mod_defs m)) -> snd p = mod_name m /\ In (fst p) (defined_names m)).
  { intros m p H. apply in_map_iff in H as (x & <- & H). split; [reflexivity|]. unfold defined_names. apply (in_map def_name), H. }
  assert (Names : forall m, defined_names m = map fst (map (fun d => (def_name d, mod_name m)) (mod_defs m))).
  { intros m. rewrite map_map. reflexivity. }
  induction ms as [|m ms IH]; intros a p b q r E; [destruct a; discriminate|].
  change (located (m :: ms)) with (map (fun d => (def_name d, mod_name m)) (mod_defs m) ++ located ms) in E.
  set (h := map (fun d => (def_name d, mod_name m)) (mod_defs m)) in *.
  destruct (app_eq_app _ _ _ _ E) as (l & [(E1 & E2)|(E1 & E2)]).
  - destruct l as [|x l].
    + rewrite app_nil_r in E1. cbn [app] in E2. destruct (IH [] p b q r (eq_sym E2)) as [(m1 & M & K)|(x & m1 & y & m2 & z & -> & K)].
      * left. exists m1. split; [right; exact M|exact K].
      * right. exists (m :: x), m1, y, m2, z. split; [reflexivity|exact K].
    + cbn [app] in E2. injection E2 as <- E2.
      assert (P : In p h) by (rewrite E1; apply in_or_app; right; left; reflexivity). destruct (One m p P) as (P1 & P2).
      symmetry in E2. destruct (app_eq_app _ _ _ _ E2) as (l2 & [(E3 & E4)|(E3 & E4)]).
      * destruct l2 as [|x l2].
        -- rewrite app_nil_r in E3. cbn [app] in E4. right.
           destruct (located_In ms q) as (m2 & M2 & Q1 & Q2); [rewrite <- E4; left; reflexivity|].
           apply in_split in M2 as (y & z & ->). exists [], m, y, m2, z. auto.
        -- cbn [app] in E4. injection E4 as <- E4. left. exists m. split; [left; reflexivity|]. split; [exact P1|].
           split; [apply (One m q); fold h; rewrite E1, E3; apply in_or_app; right; right; apply in_or_app; right; left; reflexivity|].
           exists (map fst a), (map fst b), (map fst l2). rewrite Names. fold h. rewrite E1, E3, !map_app. cbn [map]. rewrite map_app. reflexivity.
      * right. destruct (located_In ms q) as (m2 & M2 & Q1 & Q2); [rewrite E4; apply in_or_app; right; left; reflexivity|].
        apply in_split in M2 as (y & z & ->). exists [], m, y, m2, z. auto.
  - destruct (IH l p b q r E2) as [(m1 & M & K)|(x & m1 & y & m2 & z & -> & K)].
    + left. exists m1. split; [right; exact M|exact K].
    + right. exists (m :: x), m1, y, m2, z. split; [reflexivity|exact K].
Qed.

(** Messages about read modules and about processed ones *)
Lemma contains_ext : forall ds ds', (forall n c l, In (DSequence n c l) ds -> In (DSequence n c l) ds') ->
  forall t w t1 w1, contains_clause ds t w t1 w1 -> contains_clause ds' t w t1 w1.
Proof. intros ds ds' H t w t1 w1 C. induction C; [constructor|]. eapply clause_inside; eauto. Qed.
Lemma clause_in_ext : forall ds ds', (forall n c l, In (DSequence n c l) ds -> In (DSequence n c l) ds') ->
  forall n t w, clause_in ds n t w -> clause_in ds' n t w.
Proof. intros ds ds' H n t w (c & l & k & w0 & A & B & C & D). exists c, l, k, w0. repeat split; auto. eapply contains_ext; eassumption. Qed.
Lemma Forall2_split2 : forall A B (R : A -> B -> Prop) l a x b y c, Forall2 R l (a ++ x :: b ++ y :: c) ->
  exists a' x' b' y' c', l = a' ++ x' :: b' ++ y' :: c' /\ R x' x /\ R y' y.
Proof.
  intros A B R l a x b y c H. apply Forall2_app_inv_r in H as (a' & r & _ & H & ->). inversion H as [|x' ? r1 ? Hx H1]; subst.
  apply Forall2_app_inv_r in H1 as (b' & r2 & _ & H2 & ->). inversion H2 as [|y' ? c' ? Hy _]; subst. exists a', x', b', y', c'. auto.
Qed.
Lemma lists_iff : forall P Q l, (forall n, P n <-> Q n) -> lists P l -> lists Q l.
Proof. intros P Q l H (A & B & C). split; [exact A|]. split; [exact B|]. intros n. rewrite C. apply H. Qed.
Lemma bundle_says_same : forall names input ms text, Forall2 same_module input ms -> bundle_says names ms text -> bundle_says names input text.
Proof.
  intros names input ms text Hs H. assert (Hn := same_module_names _ _ Hs). assert (Hds := same_definitions _ _ Hs).
  assert (Hi := imports_resolve_same _ _ Hs). assert (Hc := clauses_valid_same _ _ Hds). assert (Hd := same_definitions_names _ _ Hds).
  assert (Hq : forall n c l, In (DSequence n c l) (definitions ms) -> In (DSequence n c l) (definitions input)).
  { intros n c l. apply (same_sequences _ _ n c l Hds). }
  inversion H as [l L E|l Nl L E|m im l Nl Nm M Im L E|n t w s c l k v kc Nl Nm Ir Cl Et S K Nk E|n t w s Nl Nm Ir Cl Et S E|m n Nl Nm Ir M R E
    |a m1 b m2 c n Nl Nm Ir Ms D1 D2 E|l x Nl Nm Ir Cv Nd L W E|l x Nl Nm Ir Cv Nd Inc L W E]; try (rewrite Hn in Nm); try (apply Hi in Ir).
  - apply says_repeated_name; assumption.
  - rewrite Hn in L. apply says_repeated_module; assumption.
  - destruct (Forall2_in_r _ _ _ _ _ _ Hs M) as (m0 & M0 & S0). destruct (Forall2_in_r _ _ _ _ _ _ Hs Im) as (im0 & I0 & S1).
    assert (E0 : mod_name m = mod_name m0) by apply S0. assert (E1 : mod_name im = mod_name im0) by apply S1. rewrite E0, E1.
    apply says_imports; try assumption. revert L. apply lists_iff. intros n. unfold not_found. rewrite (same_defined_names _ _ S1), E1.
    destruct S0 as (_ & _ & -> & _). reflexivity.
  - eapply says_key; eauto using clause_in_ext.
  - eapply says_clause; [assumption..|eapply clause_in_ext; eassumption|exact Et|]. rewrite <- Hd. destruct S as [S|S]; [left|right; exact S].
    intros c l X. apply (S c l), (same_sequences _ _ s c l Hds), X.
  - destruct (Forall2_in_r _ _ _ _ _ _ Hs M) as (m0 & M0 & S0). rewrite (same_defined_names _ _ S0) in R.
    assert (E0 : mod_name m = mod_name m0) by apply S0. rewrite E0. apply says_twice; assumption.
  - rewrite Ms in Hs. apply Forall2_split2 in Hs as (a' & x & b' & y & c' & Ei & S1 & S2). rewrite (same_defined_names _ _ S1) in D1. rewrite (same_defined_names _ _ S2) in D2.
    assert (E1 : mod_name m1 = mod_name x) by apply S1. assert (E2 : mod_name m2 = mod_name y) by apply S2. rewrite E1, E2.
    eapply says_both; eassumption.
  - subst x. rewrite Hd in Nd. apply Hc in Cv. apply says_not_given with (l := l); try assumption.
    + revert L. apply lists_iff. intros n. rewrite Hn. reflexivity.
    + unfold with_names in *. rewrite Hn in W. exact W.
  - subst x. rewrite Hd in Nd. apply Hc in Cv. rewrite Hn in Inc. apply says_not_listed with (l := l); try assumption.
    + revert L. apply lists_iff. intros n. rewrite Hn. reflexivity.
    + unfold with_names in *. rewrite Hn in W. exact W.
Qed.

Section Bundles.
Variable order : list string -> list string.
Hypothesis Order : set_order order.

Lemma lists_order : forall l P, l <> [] -> (forall n, In n l <-> P n) -> lists P (order l).
Proof.
  intros l P N H. destruct (Order l) as (D & J). split; [rewrite order_nil by exact Order; exact N|]. split; [exact D|].
  intros n. rewrite J. apply H.
Qed.
Lemma twice_shown : forall l place, l <> [] ->
  twice_text l place = (one_or_more l "The module " "The modules " ++ String.concat ", " l ++ one_or_more l " is" " are" ++ " found multiple times in the " ++ place)%string.
Proof. intros [|x [|y l]] place H; [contradiction|reflexivity..]. Qed.
Lemma missing_shown : forall l here there, l <> [] ->
  missing_text l here there = (one_or_more l "Module " "Modules " ++ String.concat ", " l ++ one_or_more l " was" " were" ++ " found in " ++ here ++ ", but "
    ++ one_or_more l "was" "were" ++ " not found in " ++ there ++ ".")%string.
Proof. intros [|x [|y l]] here there H; [contradiction|reflexivity..]. Qed.

Lemma duplicates_none : forall l, order (duplicates l) = [] -> NoDup l.
Proof. intros l H. apply order_nil in H; [|exact Order]. apply duplicates_nil. rewrite H. reflexivity. Qed.
Lemma unique_bad : forall ms names e t, unique_names_said order ms names = Bad e t -> exists text, t = Some text /\ bundle_says names ms text.
Proof.
  intros ms names e t H. unfold unique_names_said in H.
  destruct (order (duplicates names)) as [|x l] eqn:E1.
  - destruct (order (duplicates (map mod_name ms))) as [|y l] eqn:E2; [discriminate|]. assert (Q : t = Some (twice_text (y :: l) "bundle")) by congruence. subst t. eexists. split; [reflexivity|].
    rewrite <- E2, twice_shown by (rewrite E2; discriminate). apply says_repeated_module; [apply duplicates_none, E1|].
    apply lists_order; [|apply duplicates_In]. intros X. rewrite <- (order_nil order Order) in X. congruence.
  - assert (Q : t = Some (twice_text (x :: l) "--asn1-modules command-line argument")) by congruence. subst t. eexists. split; [reflexivity|].
    rewrite <- E1, twice_shown by (rewrite E1; discriminate). apply says_repeated_name.
    apply lists_order; [|apply duplicates_In]. intros X. rewrite <- (order_nil order Order) in X. congruence.
Qed.
Lemma build_module : forall ms b bm, build ms = Ok b -> In bm (b_modules b) -> In (bm_mod bm) ms.
Proof.
  intros ms b bm B H. apply In_nth_error in H as (i & H). rewrite (build_nth _ _ _ B) in H. destruct (nth_error ms i) as [m|] eqn:M; [|discriminate].
  injection H as <-. exact (nth_error_In _ _ M).
Qed.
Lemma imports_bad : forall ms b names e t, build ms = Ok b -> NoDup names -> NoDup (map mod_name ms) -> check_imports_said order b = Bad e t ->
  exists text, t = Some text /\ bundle_says names ms text.
Proof.
  intros ms b names e t B Nl Nm H. unfold check_imports_said in H. apply each_bad in H as (x & bm & y & Eb & _ & H).
  apply each_bad in H as (u & i & v & _ & _ & H). destruct (nth_error (b_modules b) i) as [im|] eqn:Im; [|discriminate].
  apply demand_bad in H as (D & _ & ->). eexists. split; [reflexivity|].
  assert (M : In (bm_mod bm) ms) by (apply (build_module ms b); [exact B|rewrite Eb; apply in_or_app; right; left; reflexivity]).
  assert (M1 : In (bm_mod im) ms) by (apply (build_module ms b); [exact B|exact (nth_error_In _ _ Im)]).
  set (un := set_diff _ _) in *.
  assert (T : bundle_says names ms ("Error parsing " ++ quoted (mod_name (bm_mod bm)) ++ ": Imports {" ++ String.concat ", " (map quoted (order un)) ++ "} From "
      ++ quoted (mod_name (bm_mod im)) ++ " not found.")).
  { apply says_imports; try assumption. apply lists_order; [intros X; rewrite X in D; discriminate|].
    intros n. unfold un, set_diff. rewrite filter_In, negb_true_iff, mem_not_In. unfold not_found, flatten. rewrite in_concat. split; intros (A1 & A2); (split; [|exact A2]).
    - destruct A1 as (l & L & J). apply in_map_iff in L as (it & <- & L). apply filter_In in L as (L & E). apply String.eqb_eq in E. exists it. auto.
    - destruct A1 as (it & L & E & J). exists (imp_names it). split; [|exact J]. apply in_map, filter_In. split; [exact L|]. apply String.eqb_eq, E. }
  unfold quoted in T at 1 3. rewrite <- !string_app_assoc in T. unfold set_text. rewrite <- !string_app_assoc. exact T.
Qed.
Lemma components_bad : forall input ms names e t, Forall (fun m => grammatical m = true) input -> parse_modules input = Ok ms ->
  NoDup names -> NoDup (map mod_name ms) -> imports_resolve ms -> check_components_said (definitions ms) = Bad e t ->
  exists text, t = Some text /\ bundle_says names ms text.
Proof.
  intros input ms names e t Hg Hp Nl Nm Ir H.
  assert (Ec : e = ConsistencyError).
  { assert (F := forget_components (definitions ms)). rewrite H in F. cbn [forget] in F.
    assert (W : within is_consistency (check_used_components_defined (definitions ms))).
    { apply within_for_each. intros d _. apply within_for_each. intros k _. destruct (m_with k); [apply wcomps_consistency|exact I]. }
    rewrite <- F in W. exact W. }
  subst e.
  assert (Hv : Forall module_valid input) by (apply parse_modules_iff; eauto).
  assert (Hs := parse_modules_same _ _ Hp). assert (Hds := same_definitions _ _ Hs).
  assert (Cap : forall d, In d (definitions ms) -> is_name_capital (def_name d) = true).
  { intros d Hin. destruct (Forall2_in_r _ _ _ _ _ _ Hds Hin) as (d0 & Hd0 & E).
    rewrite (same_definition_name _ _ E). apply (definitions_capital input); assumption. }
  assert (Ty : forall n c l k, In (DSequence n c l) (definitions ms) -> In k l -> type_ok (m_type k) = true /\ element (m_type k) <> TNull).
  { intros n c l k Hin Hk. apply (same_sequences _ _ n c l Hds) in Hin.
    destruct (definitions_types input (DSequence n c l) k Hg Hv Hin Hk) as (A & _ & B). auto. }
  unfold check_components_said in H. apply each_bad in H as (x & d & y & Ed & _ & H). apply each_bad in H as (u & k & v & Ek & _ & H).
  destruct (m_with k) as [w|] eqn:W; [|discriminate]. assert (K : In k (seq_children d)) by (rewrite Ek; apply in_or_app; right; left; reflexivity).
  destruct d as [n c l|n c l|n c l|n ty c]; try destruct K. cbn [seq_children def_name] in *.
  assert (D : In (DSequence n c l) (definitions ms)) by (rewrite Ed; apply in_or_app; right; left; reflexivity).
  destruct (sequence_bad (definitions ms) n Cap Ty n c l k w t D eq_refl K W H) as (t1 & w1 & s & C & Et & [(c1 & l1 & k1 & v1 & kc & S & J & Nk & ->)|(S & ->)]);
    (eexists; split; [reflexivity|]); [eapply says_key; eassumption|eapply says_clause; eassumption].
Qed.
Lemma split_names : forall A (f : A -> string) x m1 y m2 z, NoDup (map f (x ++ m1 :: y ++ m2 :: z)) -> f m1 <> f m2.
Proof.
  intros A f x m1 y m2 z H E. rewrite map_app in H. cbn [map] in H. apply NoDup_remove_2 in H. apply H, in_or_app. right. rewrite map_app. apply in_or_app. right. left. auto.
Qed.
Lemma twice_bad : forall ms names e t, NoDup names -> NoDup (map mod_name ms) -> imports_resolve ms -> check_duplicates_said [] (located ms) = Bad e t ->
  exists text, t = Some text /\ bundle_says names ms text.
Proof.
  intros ms names e t Nl Nm Ir H. apply duplicates_bad in H as (a & n & m0 & b & m & r & E & ->). cbn [rev app] in E. eexists. split; [reflexivity|].
  destruct (located_split _ _ _ _ _ _ E) as [(mm & M & E1 & E2 & u & v & w & D)|(x & m1 & y & m2 & z & Ms & E1 & E2 & D1 & D2)]; cbn [fst snd] in *; subst m0 m.
  - rewrite String.eqb_refl. apply says_twice; try assumption. exists u, v, w. exact D.
  - assert (Ne : mod_name m1 <> mod_name m2) by (subst ms; eapply split_names; eassumption). apply String.eqb_neq in Ne. rewrite Ne.
    eapply says_both; eassumption.
Qed.
Lemma sorted_listed : forall l, listed_sorted l (join ", " (sort_names l)).
Proof. intros l. exists (sort_names l). split; [apply sort_names_perm|]. split; [exact (sort_names_sorted l)|reflexivity]. Qed.
Lemma missing_bad : forall ms b names e t, build ms = Ok b -> NoDup names -> NoDup (map mod_name ms) -> imports_resolve ms ->
  clauses_valid (definitions ms) -> NoDup (map def_name (definitions ms)) -> check_missing_said order names b = Bad e t ->
  exists text, t = Some text /\ bundle_says names ms text.
Proof.
  intros ms b names e t B Nl Nm Ir Cv Nd H. unfold check_missing_said in H.
  assert (Mn : module_names b = map mod_name ms).
  { rewrite <- (build_modules _ _ B). unfold module_names, all_modules. rewrite map_map. reflexivity. }
  rewrite Mn in H. clear B Mn b.
  assert (Sd : forall x y n, In n (set_diff x y) <-> In n x /\ ~ In n y).
  { intros x y n. unfold set_diff. rewrite filter_In, negb_true_iff, mem_not_In. reflexivity. }
  cbv beta zeta in H. match goal with _ : context [Bad ConsistencyError (Some (missing_text _ _ _ ++ ?z)%string)] |- _ => set (rest := z) in * end.
  destruct (order (set_diff names (map mod_name ms))) as [|x l] eqn:E1.
  - destruct (order (set_diff (map mod_name ms) names)) as [|y l] eqn:E2; [discriminate|]. assert (Q : t = Some (missing_text (y :: l) "bundle" "the --asn1-modules command-line argument" ++ rest)%string) by congruence. subst t rest. eexists. split; [reflexivity|].
    rewrite <- E2. apply says_not_listed with (l := order (set_diff (map mod_name ms) names)); try assumption.
    + apply order_nil in E1; [|exact Order]. apply set_diff_nil. rewrite E1. reflexivity.
    + apply lists_order; [|apply Sd]. intros X. rewrite <- (order_nil order Order) in X. congruence.
    + exists (join ", " (sort_names names)), (join ", " (sort_names (map mod_name ms))). split; [apply sorted_listed|]. split; [apply sorted_listed|].
      rewrite missing_shown by (rewrite E2; discriminate). reflexivity.
  - assert (Q : t = Some (missing_text (x :: l) "the --asn1-modules command-line argument" "the bundle" ++ rest)%string) by congruence. subst t rest. eexists. split; [reflexivity|].
    rewrite <- E1. apply says_not_given with (l := order (set_diff names (map mod_name ms))); try assumption.
    + apply lists_order; [|apply Sd]. intros X. rewrite <- (order_nil order Order) in X. congruence.
    + exists (join ", " (sort_names names)), (join ", " (sort_names (map mod_name ms))). split; [apply sorted_listed|]. split; [apply sorted_listed|].
      rewrite missing_shown by (rewrite E1; discriminate). reflexivity.
Qed.
Theorem bundle_bad : forall names input ms t, Forall (fun m => grammatical m = true) input -> parse_modules input = Ok ms ->
  bundle_said order names ms = Bad ConsistencyError t -> exists text, t = Some text /\ bundle_says names input text.
Proof.
  intros names input ms t Hg Hp H. assert (Hs := parse_modules_same _ _ Hp).
  cut (exists text, t = Some text /\ bundle_says names ms text); [intros (x & -> & X); exists x; split; [reflexivity|]; eapply bundle_says_same; eassumption|].
  unfold bundle_said in H. apply then_bad in H as [H|([] & U & H)]; [exact (unique_bad _ _ _ _ H)|].
  apply good_forget in U. rewrite forget_unique in U by exact Order. apply validate_unique_ok in U as (Nm & Nl).
  apply then_bad in H as [H|(b & B & H)].
  { exfalso. assert (W := build_syntax ms). rewrite <- (forget_build order) in W by exact Order. rewrite H in W. discriminate W. }
  apply good_forget in B. rewrite forget_build in B by exact Order.
  assert (Ad : all_defs b = definitions ms) by (unfold all_defs; rewrite (build_modules ms b B); reflexivity).
  apply then_bad in H as [H|([] & V & H)].
  - unfold validate_bundle_said in H. apply then_bad in H as [H|([] & Im & H)]; [exact (imports_bad ms b names _ t B Nl Nm H)|].
    apply good_forget in Im. rewrite forget_imports in Im by exact Order. apply (imports_ok ms b Nm B) in Im.
    apply then_bad in H as [H|([] & _ & H)].
    + rewrite Ad in H. exact (components_bad input ms names _ t Hg Hp Nl Nm Im H).
    + rewrite (build_modules ms b B) in H. exact (twice_bad ms names _ t Nl Nm Im H).
  - apply good_forget in V. rewrite forget_validate in V by exact Order.
    assert (Ni : NoDup (map mod_name input)) by (rewrite <- (same_module_names _ _ Hs); exact Nm).
    apply (validate_bundle_ok input ms b Hg Hp Ni B) in V as (Ir & Cv & Nd). assert (Hds := same_definitions _ _ Hs).
    apply (imports_resolve_same _ _ Hs) in Ir. apply (clauses_valid_same _ _ Hds) in Cv. rewrite <- (same_definitions_names _ _ Hds) in Nd.
    apply then_bad in H as [H|([] & _ & H)]; [|discriminate]. exact (missing_bad ms b names _ t B Nl Nm Ir Cv Nd H).
Qed.
End Bundles.

(** ** Runs *)
Section Runs.
Variable order : list string -> list string.
Hypothesis Order : set_order order.

Lemma parsed_texts : forall ta l, map_said parse_text_said ta = Good l ->
  exists ma, Forall2 spells ta ma /\ Forall (fun m => grammatical m = true) ma /\ Forall module_valid ma /\ parse_modules ma = Ok l.
Proof.
  induction ta as [|s ta IH]; intros l H; cbn [map_said] in H; [injection H as <-; exists []; repeat split; constructor|].
  unfold parse_text_said at 1 in H. destruct (read_module s) as [m|] eqn:R; [|discriminate]. destruct (parse_module_said m) as [m'|e t] eqn:P; [|discriminate].
  cbn [then_] in H. destruct (map_said parse_text_said ta) as [l'|e t]; [|discriminate]. cbn [then_] in H. injection H as <-.
  destruct (IH l' eq_refl) as (ma & F & G & V & Pm). apply good_forget in P. rewrite forget_module in P. apply Syntax3_proofs.read_module_iff in R.
  assert (Gm := Grammatical_proofs.spells_grammatical _ _ R). exists (m :: ma). split; [constructor; assumption|]. split; [constructor; assumption|]. split.
  - constructor; [apply module_accepted_iff; eauto|exact V].
  - unfold parse_modules in *. cbn [map_result]. rewrite P. cbn [bind]. rewrite Pm. reflexivity.
Qed.
Theorem config_bad : forall names texts t, config_said order names texts = Bad ConsistencyError t ->
  exists text, t = Some text
  /\ ((exists ta s tr ma m, texts = ta ++ s :: tr /\ Forall2 spells ta ma /\ Forall module_valid ma /\ spells s m /\ module_says m text)
     \/ exists ms, Forall2 spells texts ms /\ Forall module_valid ms /\ bundle_says names ms text).
Proof.
  intros names texts t H. unfold config_said in H. apply then_bad in H as [H|(l & L & H)].
  - apply map_bad in H as (ta & s & tr & l & -> & L & H). apply parsed_texts in L as (ma & F & _ & V & _).
    unfold parse_text_said in H. destruct (read_module s) as [m|] eqn:R; [|discriminate]. apply Syntax3_proofs.read_module_iff in R.
    destruct (module_bad m t (Grammatical_proofs.spells_grammatical _ _ R) H) as (text & -> & Q). exists text. split; [reflexivity|]. left.
    exists ta, s, tr, ma, m. auto.
  - apply parsed_texts in L as (ms & F & G & V & P). destruct (bundle_bad order Order names ms l t G P H) as (text & -> & Q). exists text. split; [reflexivity|].
    right. exists ms. auto.
Qed.

Lemma paths_texts : forall t cwd ps ta ma, Forall2 (fun p s => exists f, path_file t cwd p f /\ text_of_file f s) ps ta -> Forall2 spells ta ma ->
  Forall2 (path_spells t cwd) ps ma.
Proof.
  intros t cwd ps ta ma H. revert ma. induction H as [|p s ps ta (f & P & T) H IH]; intros ma F; inversion F; subst; constructor; [|apply IH; assumption].
  exists f, s. auto.
Qed.
Lemma config_reported : forall fuel cwd words t a dir names texts, parse_args words = Some (a, dir) -> config_command names (command_of a) ->
  read_inputs t cwd (input_paths a) = inl texts ->
  (start_in fuel cwd words t = (t, Some Reported) <-> exists x, config_said order names texts = Bad ConsistencyError x).
Proof.
  intros fuel cwd words t a dir names texts P Hc R. unfold start_in. rewrite P, R.
  assert (If : forall d o u, into_folder t cwd d o <> (u, Reported)).
  { intros d o u. unfold into_folder. destruct (make_folder t cwd d) as [t1 [e|]]; [discriminate|].
    destruct (write_files t1 cwd d (fst o)) as [t2 [e|]]; [discriminate|]. intros X. injection X as _ X. exact (ending_not_reported _ X). }
  assert (Rj : forall e, rejection (command_of a) e = caught e) by (intros x; destruct Hc as [->|[->|(y & ->)]]; reflexivity).
  assert (Cg : forall e, caught e = Reported <-> e = ConsistencyError) by (intros []; split; intros X; first [reflexivity|discriminate]).
  assert (F := forget_config order Order names texts).
  assert (Q : (exists x, config_said order names texts = Bad ConsistencyError x) <-> forget (config_said order names texts) = Err ConsistencyError).
  { destruct (config_said order names texts) as [b|e x]; cbn [forget]; split; [intros (x & X); discriminate|discriminate|intros (y & Y); congruence|].
    intros X. injection X as ->. eauto. }
  rewrite Q, F. clear Q F. unfold on_modules. destruct (map_result read_text texts) as [ms|e|].
  - rewrite (run_in_config names) by exact Hc. destruct (build_from_config names ms) as [b|e|]; cbn [on_bundle].
    + split; [|discriminate]. intros X. exfalso. destruct (into_folder t cwd dir _) as [u x] eqn:Y in X. injection X as _ ->. exact (If _ _ _ Y).
    + split; intros X.
      * injection X as X. apply Cg in X. congruence.
      * injection X as ->. reflexivity.
    + split; discriminate.
  - rewrite Rj. generalize (match parse_texts texts with Err e' => e' | _ => e end) as y. intros y. split; intros X.
    + injection X as X. apply Cg in X. congruence.
    + injection X as ->. reflexivity.
  - rewrite Rj. split; discriminate.
Qed.
Definition PREFIX := "error: an issue occurred when validating the ASN.1 bundle: ".
Lemma printed_said : forall cwd words t x, x <> "" -> printed order cwd words t = x <->
  exists a dir names texts text, parse_args words = Some (a, dir) /\ config_command names (command_of a) /\ read_inputs t cwd (input_paths a) = inl texts
    /\ config_said order names texts = Bad ConsistencyError (Some text) /\ x = (PREFIX ++ text ++ "." ++ NL)%string.
Proof.
  intros cwd words t x N. unfold printed. split.
  - intros H. destruct (parse_args words) as [[a dir]|] eqn:P; [|congruence]. destruct (read_inputs t cwd (input_paths a)) as [texts|e] eqn:R; [|congruence].
    assert (Z : forall names, config_command names (command_of a) ->
      match config_said order names texts with
      | Bad ConsistencyError (Some text) => (PREFIX ++ text ++ "." ++ NL)%string
      | _ => ""
      end = x ->
      exists a0 dir0 names texts0 text, Some (a, dir) = Some (a0, dir0) /\ config_command names (command_of a0) /\ read_inputs t cwd (input_paths a0) = inl texts0
        /\ config_said order names texts0 = Bad ConsistencyError (Some text) /\ x = (PREFIX ++ text ++ "." ++ NL)%string).
    { intros names Hc E. destruct (config_said order names texts) as [b|[] [text|]] eqn:C; try congruence. exists a, dir, names, texts, text. auto. }
    destruct (command_of a) as [m l o|names|names|names e] eqn:C; [congruence|apply (Z names); [rewrite <- C; unfold config_command; eauto|exact H]..].
  - intros (a & dir & names & texts & text & -> & Hc & -> & C & ->). destruct Hc as [->|[->|(e & ->)]]; rewrite C; reflexivity.
Qed.
Lemma prefix_not_empty : forall s, (PREFIX ++ s)%string <> "".
Proof. intros s. discriminate. Qed.

Theorem printed_iff : forall fuel cwd words t, printed order cwd words t <> "" <-> start_in fuel cwd words t = (t, Some Reported).
Proof.
  intros fuel cwd words t. split.
  - intros N. destruct (proj1 (printed_said cwd words t _ N) eq_refl) as (a & dir & names & texts & text & P & Hc & R & C & _).
    apply (config_reported fuel cwd words t a dir names texts P Hc R). eauto.
  - intros H. assert (O := reported_only fuel cwd words t t H). destruct O as (_ & a & dir & names & Q & Hc & _). apply parse_args_iff in Q.
    destruct (read_inputs t cwd (input_paths a)) as [texts|e] eqn:R.
    + apply (config_reported fuel cwd words t a dir names texts Q Hc R) in H as (x & C). destruct (config_bad _ _ _ C) as (text & -> & _).
      rewrite (proj2 (printed_said cwd words t (PREFIX ++ text ++ "." ++ NL)%string (prefix_not_empty _))); [apply prefix_not_empty|].
      exists a, dir, names, texts, text. auto.
    + exfalso. unfold start_in in H. rewrite Q, R in H. injection H as ->. revert R. generalize (input_paths a) as ps. induction ps as [|p ps IH]; cbn [read_inputs]; [discriminate|].
      destruct (path_exists t cwd p); [|discriminate]. destruct (read_path t cwd p) as [f|]; [|discriminate]. destruct (decode_file f); [|discriminate].
      destruct (read_inputs t cwd ps); [discriminate|]. intros R. injection R as ->. apply IH. reflexivity.
Qed.
Theorem printed_true : forall cwd words t, printed order cwd words t <> "" ->
  exists a dir names text, command_line words a dir /\ config_command names (command_of a)
  /\ printed order cwd words t = ("error: an issue occurred when validating the ASN.1 bundle: " ++ text ++ "." ++ NL)%string
  /\ ((exists pa p pr ma m, input_paths a = pa ++ p :: pr /\ Forall2 (path_spells t cwd) pa ma /\ Forall module_valid ma /\ path_spells t cwd p m /\ module_says m text)
     \/ exists ms, Forall2 (path_spells t cwd) (input_paths a) ms /\ Forall module_valid ms /\ bundle_says names ms text).
Proof.
  intros cwd words t N. destruct (proj1 (printed_said cwd words t _ N) eq_refl) as (a & dir & names & texts & text & P & Hc & R & C & E).
  apply parse_args_iff in P. apply read_inputs_iff in R. exists a, dir, names, text. split; [exact P|]. split; [exact Hc|]. split; [exact E|].
  destruct (config_bad _ _ _ C) as (x & X & [(ta & s & tr & ma & m & -> & F & V & S & Q)|(ms & F & V & Q)]); injection X as <-.
  - left. apply Forall2_app_inv_r in R as (pa & pr & Ra & Rr & Ep). inversion Rr as [|p ? pr' ? (f & Pf & T) Rr' ]; subst. exists pa, p, pr', ma, m.
    split; [exact Ep|]. split; [eapply paths_texts; eassumption|]. split; [exact V|]. split; [exists f, s; auto|exact Q].
  - right. exists ms. split; [eapply paths_texts; eassumption|auto].
Qed.
End Runs.

Lemma dedup_NoDup : forall l, NoDup (dedup l).
Proof.
  induction l as [|x l IH]; cbn [dedup]; constructor.
  - intros H. apply filter_In in H as (_ & H). rewrite String.eqb_refl in H. discriminate.
  - apply NoDup_filter, IH.
Qed.
