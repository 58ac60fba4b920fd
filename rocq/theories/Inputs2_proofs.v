(** * Proofs: the cosmos command on the same modules in another order, or on
      more modules (C84, C85) *)
From Coq Require Import Permutation Lia.
From Verif Require Import Base PyNum PyStr Ast Size Processor Bundle GenCosmos Main
  Lib_proofs Spec_Check Check_proofs Spec_Grammar Spec_Bundle Bundle_proofs Accept_proofs Spec_Inputs Inputs_proofs.
Open Scope string_scope.
Open Scope list_scope.

(** Two results of the same kind. *)
Inductive rel {A B} (R : A -> B -> Prop) : result A -> result B -> Prop :=
| rel_ok a b (H : R a b) : rel R (Ok a) (Ok b)
| rel_err e : rel R (Err e) (Err e)
| rel_fuel : rel R OutOfFuel OutOfFuel.

Lemma rel_bind : forall A B A' B' (R : A -> B -> Prop) (R' : A' -> B' -> Prop) x y f g,
  rel R x y -> (forall a b, R a b -> rel R' (f a) (g b)) -> rel R' (bind x f) (bind y g).
Proof. intros A B A' B' R R' x y f g [a b H|e|] F; cbn [bind]; [apply F, H|constructor..]. Qed.
Lemma rel_eq : forall A (x y : result A), rel eq x y <-> x = y.
Proof. intros A x y. split; [intros [? ? ->|?|]; reflexivity|]. intros ->. destruct y; constructor; reflexivity. Qed.
Lemma rel_map : forall A B A' B' (R : A -> B -> Prop) (R' : A' -> B' -> Prop) f g l l',
  Forall2 R l l' -> (forall a b, R a b -> rel R' (f a) (g b)) -> rel (Forall2 R') (map_result f l) (map_result g l').
Proof.
  intros A B A' B' R R' f g l l' F K. induction F as [|a b l l' H F IH]; [constructor; constructor|]. cbn [map_result].
  eapply rel_bind; [apply K, H|]. intros x y X. eapply rel_bind; [exact IH|]. intros xs ys Xs. constructor. constructor; assumption.
Qed.
Lemma Forall2_concat : forall A B (R : A -> B -> Prop) l l', Forall2 (Forall2 R) l l' -> Forall2 R (concat l) (concat l').
Proof. intros A B R l l' F. induction F as [|a b l l' H F IH]; [constructor|]. cbn [concat]. apply Forall2_app; assumption. Qed.

Section Cosmos.
Variables (ms ms' : list module) (b b' : bundle).
Hypothesis B : build ms = Ok b.
Hypothesis B' : build ms' = Ok b'.
Hypothesis N : NoDup (map mod_name ms).
Hypothesis N' : NoDup (map mod_name ms').
Hypothesis I : incl ms ms'.

(** The same module in both. *)
Definition at_both (i i' : nat) : Prop := exists m, nth_error ms i = Some m /\ nth_error ms' i' = Some m.

Lemma at_both_eqb : forall i i' j j', at_both i i' -> at_both j j' -> Nat.eqb i j = Nat.eqb i' j'.
Proof.
  intros i i' j j' (m & A & A') (n & C & C'). destruct (Nat.eqb_spec i j) as [E|E], (Nat.eqb_spec i' j') as [E'|E']; auto; exfalso.
  - subst j. assert (m = n) as -> by congruence. apply E'. apply (NoDup_nth_error_map _ _ mod_name ms' i' j' n n); auto.
  - subst j'. assert (m = n) as -> by congruence. apply E. apply (NoDup_nth_error_map _ _ mod_name ms i j n n); auto.
Qed.

Lemma last_both : forall n i, last_index n ms = Some i -> exists i', last_index n ms' = Some i' /\ at_both i i'.
Proof.
  intros n i H. destruct (last_index_some _ _ _ H) as (m & M & <-). destruct (In_nth_error ms' m) as (i' & M').
  { apply I. eapply nth_error_In. exact M. }
  exists i'. split; [apply last_index_unique; assumption|]. exists m. auto.
Qed.

Lemma imported_both : forall i i' bm bm', at_both i i' -> nth_error (b_modules b) i = Some bm -> nth_error (b_modules b') i' = Some bm' ->
  bm_mod bm = bm_mod bm' /\ Forall2 at_both (bm_imported bm) (bm_imported bm').
Proof.
  intros i i' bm bm' (m & M & M') H H'. rewrite (build_nth _ _ _ B), M in H. rewrite (build_nth _ _ _ B'), M' in H'.
  injection H as <-. injection H' as <-. cbn [bm_mod bm_imported]. split; [reflexivity|].
  unfold imported_of. rewrite (last_index_unique _ _ _ N M), (last_index_unique _ _ _ N' M'), !Nat.eqb_refl.
  assert (D : incl (dependencies m) (map mod_name ms)).
  { assert (K : check_dependencies ms = Ok tt) by (unfold build in B; destruct (check_dependencies ms) as [[]|e|]; [reflexivity|discriminate..]).
    apply (proj1 (check_dependencies_nodup _ N) K). eapply nth_error_In. exact M. }
  induction (dependencies m) as [|n l IH]; [constructor|]. cbn [flat_map].
  destruct (last_index_In n ms (D n (or_introl eq_refl))) as (k & K). destruct (last_both _ _ K) as (k' & K' & Q). rewrite K, K'.
  cbn [app]. constructor; [exact Q|]. apply IH. intros x X. apply D. right. exact X.
Qed.

Definition same_ref (d d' : dref) : Prop := at_both (dr_mod d) (dr_mod d') /\ dr_pos d = dr_pos d' /\ dr_def d = dr_def d'.

Lemma number_both : forall i i' l k, at_both i i' -> Forall2 same_ref (number_defs i k l) (number_defs i' k l).
Proof. intros i i' l. induction l as [|d l IH]; intros k H; [constructor|]. cbn [number_defs]. constructor; [repeat split; exact H|auto]. Qed.

Lemma both_some : forall i i', at_both i i' -> exists bm bm', nth_error (b_modules b) i = Some bm /\ nth_error (b_modules b') i' = Some bm'.
Proof. intros i i' (m & M & M'). rewrite (build_nth _ _ _ B), (build_nth _ _ _ B'), M, M'. cbn [option_map]. eauto. Qed.

Lemma drefs_both : forall i i', at_both i i' -> Forall2 same_ref (module_drefs b i) (module_drefs b' i').
Proof.
  intros i i' H. destruct (both_some _ _ H) as (bm & bm' & E & E'). unfold module_drefs. rewrite E, E'.
  destruct (imported_both _ _ _ _ H E E') as (-> & _). apply number_both, H.
Qed.

Lemma same_object_both : forall x x' y y', same_ref x x' -> same_ref y y' -> same_object x y = same_object x' y'.
Proof. intros x x' y y' (A & P & _) (A' & P' & _). unfold same_object. rewrite (at_both_eqb _ _ _ _ A A'), P, P'. reflexivity. Qed.

Lemma filter_both : forall f g l l', Forall2 same_ref l l' -> (forall x x', same_ref x x' -> f x = g x') ->
  Forall2 same_ref (filter f l) (filter g l').
Proof.
  intros f g l l' F K. induction F as [|x x' l l' H F IH]; [constructor|]. cbn [filter]. rewrite (K _ _ H).
  destruct (g x'); [constructor; assumption|exact IH].
Qed.
Lemma dedup_both : forall l l', Forall2 same_ref l l' -> Forall2 same_ref (dedup_drefs l) (dedup_drefs l').
Proof.
  intros l l' F. induction F as [|x x' l l' H F IH]; [constructor|]. cbn [dedup_drefs]. constructor; [exact H|].
  apply filter_both; [exact IH|]. intros y y' Y. rewrite (same_object_both _ _ _ _ H Y). reflexivity.
Qed.

Lemma recurs_both : forall fuel n i i', at_both i i' ->
  rel (Forall2 same_ref) (definitions_recurs fuel b n i) (definitions_recurs fuel b' n i').
Proof.
  induction fuel as [|fuel IH]; intros n i i' H; [constructor|]. cbn [definitions_recurs].
  destruct (both_some _ _ H) as (bm & bm' & E & E'). rewrite E, E'. destruct (imported_both _ _ _ _ H E E') as (_ & Im).
  eapply rel_bind; [eapply rel_map; [exact Im|intros j j' J; apply IH, J]|]. intros x y X. constructor.
  apply dedup_both, filter_both.
  - apply Forall2_app; [apply drefs_both, H|apply Forall2_concat, X].
  - intros d d' (_ & _ & ->). reflexivity.
Qed.

Lemma definition_both : forall fuel n i i', at_both i i' -> rel same_ref (get_definition fuel b n i) (get_definition fuel b' n i').
Proof.
  intros fuel n i i' H. unfold get_definition. eapply rel_bind; [apply recurs_both, H|]. intros l l' F.
  destruct F as [|x x' l l' X F]; [constructor|]. destruct F; constructor. exact X.
Qed.

Definition same_info (x y : leaf_info) : Prop :=
  match x, y with Nested d, Nested d' => same_ref d d' | Leaf s c p q, Leaf s' c' p' q' => s = s' /\ c = c' /\ p = p' /\ q = q' | _, _ => False end.

Lemma info_both : forall fuel i i' t, at_both i i' -> rel same_info (member_info fuel b i t) (member_info fuel b' i' t).
Proof.
  intros fuel i i' t H. unfold member_info.
  assert (K : rel same_info
    (let* d := get_definition fuel b (type_name t) i in
     match dr_def d with DSimple _ t' _ => Ok (Leaf [] (get_c_type t') (type_begin t') (type_end t'))
     | DEnumerated _ _ l => Ok (Leaf (map e_key l) (Some A_UINT) (Some (NInt 0)) (Some (NInt (Z.of_nat (List.length l) - 1))))
     | _ => Ok (Nested d) end)
    (let* d := get_definition fuel b' (type_name t) i' in
     match dr_def d with DSimple _ t' _ => Ok (Leaf [] (get_c_type t') (type_begin t') (type_end t'))
     | DEnumerated _ _ l => Ok (Leaf (map e_key l) (Some A_UINT) (Some (NInt 0)) (Some (NInt (Z.of_nat (List.length l) - 1))))
     | _ => Ok (Nested d) end)).
  { eapply rel_bind; [apply definition_both, H|]. intros d d' D. assert (E := proj2 (proj2 D)). rewrite <- E.
    destruct (dr_def d); constructor; cbn [same_info]; auto. }
  destruct (mem _ _); [constructor; cbn; auto|]. destruct (String.eqb _ _); [constructor; cbn; auto|].
  destruct t; try exact K. constructor; cbn; auto.
Qed.

Definition same_slot (x y : nat * nat * nat * list witem) : Prop :=
  let '(i, d, k, l) := x in let '(i', d', k', l') := y in at_both i i' /\ d = d' /\ k = k' /\ l = l'.

Lemma get_both : forall st st' i i' d k, Forall2 same_slot st st' -> at_both i i' -> state_get st i d k = state_get st' i' d k.
Proof.
  intros st st' i i' d k F H. induction F as [|(((a & c) & e) & l) (((a' & c') & e') & l') st st' (A & -> & -> & ->) F IH]; [reflexivity|].
  cbn [state_get]. rewrite (at_both_eqb _ _ _ _ A H), IH. reflexivity.
Qed.

Lemma hand_both : forall st st' i i' d k m g, Forall2 same_slot st st' -> at_both i i' ->
  fst (hand_down st i d k m g) = fst (hand_down st' i' d k m g)
  /\ Forall2 same_slot (snd (hand_down st i d k m g)) (snd (hand_down st' i' d k m g)).
Proof.
  intros st st' i i' d k m g F H. unfold hand_down, own_components. rewrite (get_both _ _ _ _ d k F H).
  destruct (m_with m) as [w|]; [destruct (state_get st' i' d k)|]; destruct g as [[z|f|v|w']|]; cbn [fst snd]; split; auto;
    unfold state_set; constructor; auto; repeat split; exact H.
Qed.

Definition same_items (x y : list entry * cstate) : Prop := fst x = fst y /\ Forall2 same_slot (snd x) (snd y).

Lemma items_both : forall fuel root root' d d' w st st', at_both root root' -> same_ref d d' -> Forall2 same_slot st st' ->
  rel same_items (items_of fuel b root d w st) (items_of fuel b' root' d' w st').
Proof.
  induction fuel as [|fuel IH]; intros root root' d d' w st st' R D F; [constructor|]. cbn [items_of].
  destruct D as (A & P & E). rewrite <- E, <- P. destruct (dr_def d) as [n c ms0|n c l|n c l|n t c]; try constructor. clear E P.
  revert st st' F. generalize 0%nat as k. induction ms0 as [|m r IHr]; intros k st st' F; [constructor; split; [reflexivity|exact F]|].
  destruct (hand_both st st' _ _ (dr_pos d) k m (given_value w (m_key m)) F A) as (H1 & H2).
  destruct (hand_down st (dr_mod d) (dr_pos d) k m (given_value w (m_key m))) as (down, st1).
  destruct (hand_down st' (dr_mod d') (dr_pos d) k m (given_value w (m_key m))) as (down', st1'). cbn [fst snd] in H1, H2. subst down'.
  eapply rel_bind; [apply info_both, R|]. intros x y X.
  eapply (rel_bind _ _ _ _ same_items).
  - destruct x as [x|s cc p q], y as [y|s' cc' p' q']; cbn [same_info] in X; try contradiction.
    + apply IH; assumption.
    + destruct X as (-> & -> & -> & ->). destruct (leaf_entry _ _ _ _ _ _); constructor. split; [reflexivity|exact H2].
  - intros (es & st2) (es' & st2') (E1 & E2). cbn [fst snd] in E1, E2. subst es'.
    eapply (rel_bind _ _ _ _ same_items); [apply IHr, E2|]. intros (rs & st3) (rs' & st3') (E3 & E4). cbn [fst snd] in E3, E4. subst rs'.
    constructor. split; [reflexivity|exact E4].
Qed.

Lemma dict_both : forall n l l', Forall2 same_ref l l' ->
  match dict_get n (map (fun d => (def_name (dr_def d), d)) l), dict_get n (map (fun d => (def_name (dr_def d), d)) l') with
  | Some d, Some d' => same_ref d d' | None, None => True | _, _ => False end.
Proof.
  intros n l l' F. induction F as [|x x' l l' X F IH]; [exact Logic.I|]. cbn [map dict_get]. assert (E := proj2 (proj2 X)). rewrite <- E.
  destruct (dict_get n (map _ l)), (dict_get n (map _ l')); try contradiction; auto. destruct (String.eqb _ _); auto.
Qed.

Lemma packets_both : forall fuel i i' l st st', at_both i i' -> Forall2 same_slot st st' ->
  packets fuel b i l st = packets fuel b' i' l st'.
Proof.
  intros fuel i i' l st st' H. revert st st'. induction l as [|n l IH]; intros st st' F; [reflexivity|]. cbn [packets].
  assert (D := dict_both n _ _ (drefs_both _ _ H)).
  destruct (dict_get n (map _ (module_drefs b i))) as [d|], (dict_get n (map _ (module_drefs b' i'))) as [d'|]; try contradiction; [|reflexivity].
  apply rel_eq. eapply rel_bind; [apply items_both; [exact H|exact D|exact F]|]. intros (es & st2) (es' & st2') (E & E'). cbn [fst snd] in E, E'. subst es'.
  apply rel_eq. rewrite (IH _ _ E'). destruct D as (_ & _ & ->). reflexivity.
Qed.

Lemma index_of_nth : forall n l k, NoDup (map bm_name l) -> forall i bm, nth_error l i = Some bm -> bm_name bm = n -> index_of n k l = Some (k + i)%nat.
Proof.
  intros n l. induction l as [|x l IH]; intros k ND i bm H E; [destruct i; discriminate|]. cbn [index_of]. inversion ND as [|? ? A ND']; subst.
  destruct i as [|i]; cbn [nth_error] in H.
  - injection H as ->. rewrite String.eqb_refl. f_equal. lia.
  - destruct (String.eqb_spec (bm_name x) (bm_name bm)) as [Q|Q].
    + exfalso. apply A. rewrite Q. apply in_map. eapply nth_error_In. exact H.
    + rewrite (IH (S k) ND' i bm H eq_refl). f_equal. lia.
Qed.
Lemma find_nth : forall n l, NoDup (map bm_name l) -> forall i bm, nth_error l i = Some bm -> bm_name bm = n ->
  find (fun bm => String.eqb (bm_name bm) n) l = Some bm.
Proof.
  intros n l. induction l as [|x l IH]; intros ND i bm H E; [destruct i; discriminate|]. cbn [find]. inversion ND as [|? ? A ND']; subst.
  destruct i as [|i]; cbn [nth_error] in H.
  - injection H as ->. rewrite String.eqb_refl. reflexivity.
  - destruct (String.eqb_spec (bm_name x) (bm_name bm)) as [Q|Q].
    + exfalso. apply A. rewrite Q. apply in_map. eapply nth_error_In. exact H.
    + apply (IH ND' i bm H eq_refl).
Qed.
Lemma bundle_nodup : forall s c, build s = Ok c -> NoDup (map mod_name s) -> NoDup (map bm_name (b_modules c)).
Proof. intros s c H K. rewrite <- (build_modules _ _ H) in K. unfold all_modules in K. rewrite map_map in K. exact K. Qed.

Lemma packets_same : forall fuel mn msgs, In mn (map mod_name ms) -> cosmos_packets fuel b mn msgs = cosmos_packets fuel b' mn msgs.
Proof.
  intros fuel mn msgs H. destruct (last_index_In _ _ H) as (i & L). destruct (last_both _ _ L) as (i' & L' & A).
  destruct (last_index_some _ _ _ L) as (m & M & En). destruct A as (m2 & M2 & M2'). assert (m2 = m) as -> by congruence.
  assert (A : at_both i i') by (exists m; auto). destruct (both_some _ _ A) as (bm & bm' & E & E').
  destruct (imported_both _ _ _ _ A E E') as (Em & _).
  assert (Nm : bm_name bm = mn). { rewrite (build_nth _ _ _ B), M in E. injection E as <-. exact En. }
  assert (Nm' : bm_name bm' = mn) by (unfold bm_name in *; congruence).
  unfold cosmos_packets, get_module.
  assert (Z : is_nil (b_modules b) = false) by (destruct (b_modules b); [destruct i; discriminate|reflexivity]).
  assert (Z' : is_nil (b_modules b') = false) by (destruct (b_modules b'); [destruct i'; discriminate|reflexivity]).
  rewrite Z, Z', (find_nth _ _ (bundle_nodup _ _ B N) _ _ E Nm), (find_nth _ _ (bundle_nodup _ _ B' N') _ _ E' Nm').
  rewrite (index_of_nth _ _ _ (bundle_nodup _ _ B N) _ _ E Nm), (index_of_nth _ _ _ (bundle_nodup _ _ B' N') _ _ E' Nm').
  cbn [bind Nat.add]. rewrite Em. rewrite (packets_both fuel _ _ msgs [] [] A (Forall2_nil _)). reflexivity.
Qed.
End Cosmos.

Lemma parsed_incl : forall input input' ms ms', parse_modules input = Ok ms -> parse_modules input' = Ok ms' -> incl input input' -> incl ms ms'.
Proof.
  intros input input' ms ms' P P' I m H. apply map_result_ok in P, P'. destruct (Forall2_in_r _ _ _ _ _ _ P H) as (x & X & Q).
  destruct (Forall2_in_l _ _ _ _ _ _ P' (I x X)) as (y & Y & Q'). rewrite Q in Q'. injection Q' as ->. exact Y.
Qed.
Lemma parsed_names : forall input ms, parse_modules input = Ok ms -> map mod_name ms = map mod_name input.
Proof.
  intros input ms P. apply parse_modules_same in P. induction P as [|a c l l' H P IH]; [reflexivity|]. cbn [map]. rewrite IH. f_equal. apply H.
Qed.

Theorem cosmos_same : forall mn msgs out input input' fuel fs,
  NoDup (map mod_name input) -> NoDup (map mod_name input') -> incl input input' -> In mn (map mod_name input) ->
  (exists b, build_from_cosmos_config input = Ok b) -> (exists b, build_from_cosmos_config input' = Ok b) ->
  run fuel (GenerateCosmos mn msgs out) input fs = run fuel (GenerateCosmos mn msgs out) input' fs.
Proof.
  intros mn msgs out input input' fuel fs N N' I H (b & B) (b' & B'). cbn [run]. unfold with_bundle. rewrite B, B'.
  destruct (accepted_inv _ _ (or_intror B)) as (ms & Hp & Hb & _). destruct (accepted_inv _ _ (or_intror B')) as (ms' & Hp' & Hb' & _).
  unfold generate_cosmos.
  rewrite (packets_same ms ms' b b' Hb Hb') with (mn := mn); [reflexivity| | |eapply parsed_incl; eassumption|].
  - rewrite (parsed_names _ _ Hp). exact N.
  - rewrite (parsed_names _ _ Hp'). exact N'.
  - rewrite (parsed_names _ _ Hp). exact H.
Qed.

Lemma absent_packets : forall input b mn msgs fuel, build_from_cosmos_config input = Ok b -> ~ In mn (map mod_name input) ->
  cosmos_packets fuel b mn msgs
  = if is_nil input then Err AssertionErr else let* _ := assert (is_nil (set_diff msgs [])) GenericException in Ok [].
Proof.
  intros input b mn msgs fuel B H. destruct (accepted_inv _ _ (or_intror B)) as (ms & Hp & Hb & A & _).
  rewrite <- (parsed_names _ _ Hp), <- A in H. unfold all_modules in H. rewrite map_map in H. change (~ In mn (map bm_name (b_modules b))) in H.
  assert (Z : is_nil (b_modules b) = is_nil input).
  { assert (E := parsed_names _ _ Hp). rewrite <- A in E. unfold all_modules in E. destruct (b_modules b), input; try discriminate; reflexivity. }
  unfold cosmos_packets, get_module. rewrite Z. destruct (is_nil input); [reflexivity|]. cbn [bind].
  assert (F : find (fun bm => String.eqb (bm_name bm) mn) (b_modules b) = None).
  { destruct (find _ _) as [bm|] eqn:F; [|reflexivity]. apply find_some in F as (F & E). apply String.eqb_eq in E. exfalso. apply H. rewrite <- E.
    apply in_map, F. }
  assert (X : forall l k, ~ In mn (map bm_name l) -> index_of mn k l = None).
  { induction l as [|x l IH]; intros k K; [reflexivity|]. cbn [index_of]. destruct (String.eqb_spec (bm_name x) mn) as [E|E].
    - exfalso. apply K. left. exact E.
    - apply IH. intros Q. apply K. right. exact Q. }
  rewrite F, (X _ 0%nat H). reflexivity.
Qed.

Lemma cosmos_valid_perm : forall input input', Permutation input input' -> NoDup (map mod_name input) ->
  Forall (fun m => grammatical m = true) input -> (exists b, build_from_cosmos_config input = Ok b) -> exists b, build_from_cosmos_config input' = Ok b.
Proof.
  intros input input' P N G H.
  assert (I : incl input input') by (intros x; apply Permutation_in, P).
  assert (J : incl input' input) by (intros x; apply Permutation_in, Permutation_sym, P).
  assert (G' : Forall (fun m => grammatical m = true) input') by (apply Forall_forall; rewrite Forall_forall in G; auto).
  apply (cosmos_accepted_iff input G N) in H as (V1 & V2 & V3 & V4).
  apply (cosmos_accepted_iff input' G' (Permutation_NoDup (Permutation_map mod_name P) N)). split; [|split; [|split]].
  - rewrite Forall_forall in *. auto.
  - intros m it M H. destruct (V2 m it (J m M) H) as (im & Im & Q). exists im. auto.
  - intros n c ms k w H K W. apply (clause_valid_incl _ _ (definitions_incl _ _ I)). exact (V3 n c ms k w (definitions_incl _ _ J _ H) K W).
  - eapply Permutation_NoDup; [|exact V4]. apply Permutation_map, Permutation_flat_map. exact P.
Qed.

Theorem cosmos_order : forall mn msgs out input input' fuel fs fs1,
  Forall (fun m => grammatical m = true) input -> NoDup (map mod_name input) -> Permutation input input' ->
  run fuel (GenerateCosmos mn msgs out) input fs = (fs1, Ok tt) ->
  run fuel (GenerateCosmos mn msgs out) input' fs = (fs1, Ok tt).
Proof.
  intros mn msgs out input input' fuel fs fs1 G N P R.
  assert (B : exists b, build_from_cosmos_config input = Ok b).
  { cbn [run] in R. unfold with_bundle in R. destruct (build_from_cosmos_config input) as [b|e|]; [eauto|discriminate..]. }
  assert (B' := cosmos_valid_perm _ _ P N G B). assert (Pm := Permutation_map mod_name P).
  destruct (in_dec string_dec mn (map mod_name input)) as [H|H].
  - rewrite <- R. symmetry. apply cosmos_same; auto; [exact (Permutation_NoDup Pm N)|]. intros x. apply Permutation_in, P.
  - rewrite <- R. destruct B as (b & B), B' as (b' & B'). cbn [run]. unfold with_bundle. rewrite B, B'. unfold generate_cosmos.
    rewrite (absent_packets _ _ _ msgs fuel B H), (absent_packets input' _ _ msgs fuel B').
    + replace (is_nil input') with (is_nil input); [reflexivity|]. apply Permutation_length in P. destruct input, input'; cbn in P |- *; congruence.
    + intros K. apply H. exact (Permutation_in _ (Permutation_sym Pm) K).
Qed.

Theorem cosmos_whole : forall mn msgs out input input' fuel fs,
  Forall (fun m => grammatical m = true) input' -> NoDup (map mod_name input') -> self_contained input input' ->
  Forall module_valid input' -> imports_resolve input' -> clauses_valid (definitions input') -> NoDup (map def_name (definitions input')) ->
  In mn (map mod_name input) ->
  run fuel (GenerateCosmos mn msgs out) input fs = run fuel (GenerateCosmos mn msgs out) input' fs.
Proof.
  intros mn msgs out input input' fuel fs G' N' Sc V Im C D H.
  assert (G : Forall (fun m => grammatical m = true) input) by (apply Forall_forall; rewrite Forall_forall in G'; intros x X; apply G', Sc, X).
  apply cosmos_same; auto; [apply Sc|apply Sc| |].
  - apply (cosmos_accepted_iff input G (sc_names _ _ Sc)). apply (part_valid input input'); assumption.
  - apply (cosmos_accepted_iff input' G' N'). auto.
Qed.
