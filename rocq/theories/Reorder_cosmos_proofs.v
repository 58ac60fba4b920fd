(** * Proofs: definitions in another order, the cosmos command (C92) *)
From Coq Require Import Permutation Lia.
From Verif Require Import Base PyNum PyStr Ast Size Processor Bundle GenCosmos Main
  Lib_proofs Spec_Check Check_proofs Spec_Grammar Spec_Bundle Bundle_proofs Accept_proofs Order_proofs Spec_Cosmos Cosmos_proofs Cosmos_runs_proofs Inputs2_proofs
  Spec_History Last_proofs Spec_Reorder Reorder_proofs Reorder_files_proofs.
Open Scope string_scope.
Open Scope list_scope.

Section Cosmos.
Variables (ms ms' : list module) (b b' : bundle).
Hypothesis B : build ms = Ok b.
Hypothesis B' : build ms' = Ok b'.
Hypothesis F : Forall2 reordered ms ms'.
Hypothesis U : NoDup (map def_name (definitions ms)).

(** A definition of a module at a position. *)
Definition stands (l : list module) (d : dref) : Prop :=
  exists m, nth_error l (dr_mod d) = Some m /\ nth_error (mod_defs m) (dr_pos d) = Some (dr_def d).

Lemma names_unique : NoDup (map def_name (definitions ms')).
Proof. eapply Permutation_NoDup; [apply Permutation_map, reordered_definitions; exact F|exact U]. Qed.

Lemma stands_once : forall l, NoDup (map def_name (definitions l)) -> forall d d', stands l d -> stands l d' ->
  def_name (dr_def d) = def_name (dr_def d') -> d = d'.
Proof.
  intros l N [i p x] [i' p' x'] (m & M & P) (m' & M' & P') E. cbn [dr_mod dr_pos dr_def] in *.
  assert (N2 : NoDup (flat_map (fun m => map def_name (mod_defs m)) l)).
  { unfold definitions in N. rewrite flat_map_concat_map, concat_map, map_map, <- flat_map_concat_map in N. exact N. }
  assert (i = i') as <-.
  { eapply (NoDup_flat_map_inj _ _ _ _ _ _ _ _ (def_name x) N2 M M').
    - apply in_map. eapply nth_error_In. exact P.
    - rewrite E. apply in_map. eapply nth_error_In. exact P'. }
  assert (m' = m) as -> by congruence.
  assert (K : NoDup (map def_name (mod_defs m))).
  { clear - N2 M. revert i M. induction l as [|y l IH]; intros [|i] M; try discriminate; cbn [nth_error flat_map] in *; apply NoDup_app_iff in N2 as (N2 & N3 & _);
      [injection M as ->; exact N2|eauto]. }
  assert (p = p') as <- by (eapply (NoDup_nth_error_map _ _ def_name (mod_defs m) p p' x x' K P P'); exact E).
  congruence.
Qed.

(** The same definition in both. *)
Definition twin (d d' : dref) : Prop := dr_mod d = dr_mod d' /\ dr_def d = dr_def d' /\ stands ms d /\ stands ms' d'.

Lemma same_object_twin : forall x x' y y', twin x x' -> twin y y' -> same_object x y = same_object x' y'.
Proof.
  intros x x' y y' (A1 & A2 & A3 & A4) (C1 & C2 & C3 & C4).
  assert (K : forall l u v, stands l u -> stands l v -> NoDup (map def_name (definitions l)) -> same_object u v = true -> u = v).
  { intros l u v Su Sv N H. unfold same_object in H. apply andb_true_iff in H as (H1 & H2). apply Nat.eqb_eq in H1, H2.
    destruct Su as (m & M & P), Sv as (m' & M' & P'). rewrite H1 in M. assert (m' = m) as -> by congruence. rewrite H2 in P.
    destruct u, v; cbn in *; congruence. }
  assert (R : forall u, same_object u u = true) by (intros u; unfold same_object; rewrite !Nat.eqb_refl; reflexivity).
  destruct (same_object x y) eqn:E, (same_object x' y') eqn:E'; auto; exfalso.
  - apply (K ms) in E; auto. subst y. assert (Q : x' = y') by (apply (stands_once ms' names_unique); auto; congruence). subst y'. rewrite R in E'. discriminate.
  - apply (K ms') in E'; auto using names_unique. subst y'. assert (Q : x = y) by (apply (stands_once ms U); auto; congruence). subst y. rewrite R in E. discriminate.
Qed.

Lemma filter_twin : forall f g l l', Forall2 twin l l' -> (forall x x', twin x x' -> f x = g x') -> Forall2 twin (filter f l) (filter g l').
Proof.
  intros f g l l' T K. induction T as [|x x' l l' H T IH]; [constructor|]. cbn [filter]. rewrite (K _ _ H).
  destruct (g x'); [constructor; assumption|exact IH].
Qed.
Lemma dedup_twin : forall l l', Forall2 twin l l' -> Forall2 twin (dedup_drefs l) (dedup_drefs l').
Proof.
  intros l l' T. induction T as [|x x' l l' H T IH]; [constructor|]. cbn [dedup_drefs]. constructor; [exact H|].
  apply filter_twin; [exact IH|]. intros y y' Y. rewrite (same_object_twin _ _ _ _ H Y). reflexivity.
Qed.

(** The definitions of one module: the same ones. *)
Lemma twin_of : forall i d, In d (module_drefs b i) -> exists d', In d' (module_drefs b' i) /\ twin d d'.
Proof.
  intros i d H. apply (module_drefs_In ms b B) in H as (E & m & M & P). destruct (reordered_nth _ _ _ _ F M) as (m' & M' & S).
  assert (D : In (dr_def d) (mod_defs m')) by (apply (reordered_def _ _ _ S); eapply nth_error_In; exact P).
  apply In_nth_error in D as (p & P'). exists (mkdref i p (dr_def d)). split.
  - apply (module_drefs_In ms' b' B'). cbn. split; [reflexivity|]. eauto.
  - split; [exact E|]. split; [reflexivity|]. split; [exists m; rewrite E; auto|exists m'; cbn; auto].
Qed.
Lemma twin_of_r : forall i d', In d' (module_drefs b' i) -> exists d, In d (module_drefs b i) /\ twin d d'.
Proof.
  intros i d H. apply (module_drefs_In ms' b' B') in H as (E & m & M & P). destruct (reordered_nth _ _ _ _ (reordered_flip _ _ F) M) as (m' & M' & S).
  assert (D : In (dr_def d) (mod_defs m')) by (apply (reordered_def _ _ _ S); eapply nth_error_In; exact P).
  apply In_nth_error in D as (p & P'). exists (mkdref i p (dr_def d)). split.
  - apply (module_drefs_In ms b B). cbn. split; [reflexivity|]. eauto.
  - split; [symmetry; exact E|]. split; [reflexivity|]. split; [exists m'; cbn; auto|exists m; rewrite E; auto].
Qed.
Lemma drefs_stand : forall i d, In d (module_drefs b i) -> stands ms d.
Proof. intros i d H. apply (module_drefs_In ms b B) in H as (E & m & M & P). exists m. rewrite E. auto. Qed.
Lemma drefs_stand' : forall i d, In d (module_drefs b' i) -> stands ms' d.
Proof. intros i d H. apply (module_drefs_In ms' b' B') in H as (E & m & M & P). exists m. rewrite E. auto. Qed.

Lemma number_nodup : forall i l k, NoDup (number_defs i k l).
Proof.
  intros i l. induction l as [|d l IH]; intros k; [constructor|]. cbn [number_defs]. constructor; [|apply IH].
  intros H. apply number_defs_In in H as (_ & j & E & _). cbn in E. lia.
Qed.
Lemma drefs_nodup : forall bu i, NoDup (module_drefs bu i).
Proof. intros bu i. unfold module_drefs. destruct (nth_error (b_modules bu) i); [apply number_nodup|constructor]. Qed.

Lemma short_list : forall A (l : list A), NoDup l -> (forall x y, In x l -> In y l -> x = y) -> l = [] \/ exists x, l = [x].
Proof.
  intros A [|x [|y l]] N H; [left; reflexivity|right; eauto|]. exfalso. inversion N as [|? ? K _]; subst. apply K.
  rewrite (H x y); [left; reflexivity|left; reflexivity|right; left; reflexivity].
Qed.

Lemma named_twin : forall n i, Forall2 twin (filter (fun d => String.eqb (def_name (dr_def d)) n) (module_drefs b i))
  (filter (fun d => String.eqb (def_name (dr_def d)) n) (module_drefs b' i)).
Proof.
  intros n i. set (f := fun d => String.eqb (def_name (dr_def d)) n).
  assert (S1 : filter f (module_drefs b i) = [] \/ exists x, filter f (module_drefs b i) = [x]).
  { apply short_list; [apply NoDup_filter, drefs_nodup|]. intros x y X Y. apply filter_In in X as (X & Ex), Y as (Y & Ey). apply String.eqb_eq in Ex, Ey.
    apply (stands_once ms U); eauto using drefs_stand. congruence. }
  assert (S2 : filter f (module_drefs b' i) = [] \/ exists x, filter f (module_drefs b' i) = [x]).
  { apply short_list; [apply NoDup_filter, drefs_nodup|]. intros x y X Y. apply filter_In in X as (X & Ex), Y as (Y & Ey). apply String.eqb_eq in Ex, Ey.
    apply (stands_once ms' names_unique); eauto using drefs_stand'. congruence. }
  assert (L : forall x, In x (filter f (module_drefs b i)) -> exists y, In y (filter f (module_drefs b' i)) /\ twin x y).
  { intros x X. apply filter_In in X as (X & E). destruct (twin_of _ _ X) as (y & Y & T). exists y. split; [|exact T]. apply filter_In. split; [exact Y|].
    unfold f in *. destruct T as (_ & <- & _). exact E. }
  assert (R : forall y, In y (filter f (module_drefs b' i)) -> exists x, In x (filter f (module_drefs b i)) /\ twin x y).
  { intros x X. apply filter_In in X as (X & E). destruct (twin_of_r _ _ X) as (y & Y & T). exists y. split; [|exact T]. apply filter_In. split; [exact Y|].
    unfold f in *. destruct T as (_ & -> & _). exact E. }
  revert L R. destruct S1 as [->|(x & ->)], S2 as [->|(y & ->)]; intros L R.
  - constructor.
  - destruct (R y (or_introl eq_refl)) as (x & [] & _).
  - destruct (L x (or_introl eq_refl)) as (y & [] & _).
  - destruct (L x (or_introl eq_refl)) as (y' & [<-|[]] & T). constructor; [exact T|constructor].
Qed.

Lemma modules_nth : forall i, match nth_error (b_modules b) i, nth_error (b_modules b') i with
  | Some bm, Some bm' => reordered (bm_mod bm) (bm_mod bm') /\ bm_imported bm' = bm_imported bm | None, None => True | _, _ => False end.
Proof.
  intros i. rewrite (build_nth _ _ _ B), (build_nth _ _ _ B'). destruct (nth_error ms i) as [m|] eqn:M.
  - destruct (reordered_nth _ _ _ _ F M) as (m' & -> & S). cbn. split; [exact S|]. symmetry. apply imported_reordered; [exact F|exact S].
  - destruct (nth_error ms' i) as [m'|] eqn:M'; [|exact I]. destruct (reordered_nth _ _ _ _ (reordered_flip _ _ F) M') as (m & Q & _). congruence.
Qed.

Lemma recurs_twin : forall fuel n i, rel (Forall2 twin) (definitions_recurs fuel b n i) (definitions_recurs fuel b' n i).
Proof.
  induction fuel as [|fuel IH]; intros n i; [constructor|]. cbn [definitions_recurs].
  assert (Im : match nth_error (b_modules b') i with Some bm => bm_imported bm | None => [] end = match nth_error (b_modules b) i with Some bm => bm_imported bm | None => [] end).
  { assert (K := modules_nth i). destruct (nth_error (b_modules b) i), (nth_error (b_modules b') i); try contradiction; [apply K|reflexivity]. }
  rewrite Im. eapply rel_bind.
  - apply (rel_map _ _ _ _ eq); [|intros j j' <-; apply IH]. generalize (match nth_error (b_modules b) i with Some bm => bm_imported bm | None => [] end).
    intros l. induction l; constructor; auto.
  - intros x y X. constructor. apply dedup_twin. rewrite !filter_app. apply Forall2_app; [apply named_twin|].
    apply filter_twin; [apply Forall2_concat, X|]. intros d d' (_ & -> & _). reflexivity.
Qed.

Lemma definition_twin : forall fuel n i, rel twin (get_definition fuel b n i) (get_definition fuel b' n i).
Proof.
  intros fuel n i. unfold get_definition. eapply rel_bind; [apply recurs_twin|]. intros l l' T.
  destruct T as [|x x' l l' X T]; [constructor|]. destruct T; constructor. exact X.
Qed.

Definition twin_info (x y : leaf_info) : Prop :=
  match x, y with Nested d, Nested d' => twin d d' | Leaf s c p q, Leaf s' c' p' q' => s = s' /\ c = c' /\ p = p' /\ q = q' | _, _ => False end.

Lemma info_twin : forall fuel i t, rel twin_info (member_info fuel b i t) (member_info fuel b' i t).
Proof.
  intros fuel i t. unfold member_info.
  assert (K : rel twin_info
    (let* d := get_definition fuel b (type_name t) i in
     match dr_def d with DSimple _ t' _ => Ok (Leaf [] (get_c_type t') (type_begin t') (type_end t'))
     | DEnumerated _ _ l => Ok (Leaf (map e_key l) (Some A_UINT) (Some (NInt 0)) (Some (NInt (Z.of_nat (List.length l) - 1))))
     | _ => Ok (Nested d) end)
    (let* d := get_definition fuel b' (type_name t) i in
     match dr_def d with DSimple _ t' _ => Ok (Leaf [] (get_c_type t') (type_begin t') (type_end t'))
     | DEnumerated _ _ l => Ok (Leaf (map e_key l) (Some A_UINT) (Some (NInt 0)) (Some (NInt (Z.of_nat (List.length l) - 1))))
     | _ => Ok (Nested d) end)).
  { eapply rel_bind; [apply definition_twin|]. intros d d' D. assert (E := proj1 (proj2 D)). rewrite <- E.
    destruct (dr_def d); constructor; cbn [twin_info]; auto. }
  destruct (mem _ _); [constructor; cbn; auto|]. destruct (String.eqb _ _); [constructor; cbn; auto|].
  destruct t; try exact K. constructor; cbn; auto.
Qed.

(** States that hold the same lists. *)
Definition twin_state (st st' : cstate) : Prop :=
  forall d d' k, twin d d' -> state_get st (dr_mod d) (dr_pos d) k = state_get st' (dr_mod d') (dr_pos d') k.

Lemma set_twin : forall st st' d d' k l, twin_state st st' -> twin d d' ->
  twin_state (state_set st (dr_mod d) (dr_pos d) k l) (state_set st' (dr_mod d') (dr_pos d') k l).
Proof.
  intros st st' d d' k l T D x x' j X. cbn [state_set state_get].
  change (Nat.eqb (dr_mod d) (dr_mod x) && Nat.eqb (dr_pos d) (dr_pos x)) with (same_object d x).
  change (Nat.eqb (dr_mod d') (dr_mod x') && Nat.eqb (dr_pos d') (dr_pos x')) with (same_object d' x').
  rewrite (same_object_twin _ _ _ _ D X), (T x x' j X). reflexivity.
Qed.

Lemma hand_twin : forall st st' d d' k m g, twin_state st st' -> twin d d' ->
  fst (hand_down st (dr_mod d) (dr_pos d) k m g) = fst (hand_down st' (dr_mod d') (dr_pos d') k m g)
  /\ twin_state (snd (hand_down st (dr_mod d) (dr_pos d) k m g)) (snd (hand_down st' (dr_mod d') (dr_pos d') k m g)).
Proof.
  intros st st' d d' k m g T D. unfold hand_down, own_components. rewrite (T d d' k D).
  destruct (m_with m) as [w|]; [destruct (state_get st' (dr_mod d') (dr_pos d') k)|]; destruct g as [[z|f|v|w']|]; cbn [fst snd]; split; auto;
    apply set_twin; assumption.
Qed.

Definition twin_items (x y : list entry * cstate) : Prop := fst x = fst y /\ twin_state (snd x) (snd y).

Lemma items_twin : forall fuel root d d' w st st', twin d d' -> twin_state st st' ->
  rel twin_items (items_of fuel b root d w st) (items_of fuel b' root d' w st').
Proof.
  induction fuel as [|fuel IH]; intros root d d' w st st' D T; [constructor|]. cbn [items_of].
  assert (E := proj1 (proj2 D)). rewrite <- E. destruct (dr_def d) as [n c ms0|n c l|n c l|n t c]; try constructor. clear E.
  revert st st' T. generalize 0%nat as k. induction ms0 as [|m r IHr]; intros k st st' T; [constructor; split; [reflexivity|exact T]|].
  destruct (hand_twin st st' d d' k m (given_value w (m_key m)) T D) as (H1 & H2).
  destruct (hand_down st (dr_mod d) (dr_pos d) k m (given_value w (m_key m))) as (down, st1).
  destruct (hand_down st' (dr_mod d') (dr_pos d') k m (given_value w (m_key m))) as (down', st1'). cbn [fst snd] in H1, H2. subst down'.
  eapply rel_bind; [apply info_twin|]. intros x y X.
  eapply (rel_bind _ _ _ _ twin_items).
  - destruct x as [x|s cc p q], y as [y|s' cc' p' q']; cbn [twin_info] in X; try contradiction.
    + apply IH; assumption.
    + destruct X as (-> & -> & -> & ->). destruct (leaf_entry _ _ _ _ _ _); constructor. split; [reflexivity|exact H2].
  - intros (es & st2) (es' & st2') (E1 & E2). cbn [fst snd] in E1, E2. subst es'.
    eapply (rel_bind _ _ _ _ twin_items); [apply IHr, E2|]. intros (rs & st3) (rs' & st3') (E3 & E4). cbn [fst snd] in E3, E4. subst rs'.
    constructor. split; [reflexivity|exact E4].
Qed.

Lemma keys_nodup : forall l bu ds, NoDup (map def_name (definitions l)) -> (forall d, In d ds -> stands l d) -> NoDup ds ->
  bu = map (fun d => (def_name (dr_def d), d)) ds -> NoDup (map fst bu).
Proof.
  intros l bu ds N H K ->. rewrite map_map. cbn [fst]. induction ds as [|d ds IH]; [constructor|]. cbn [map]. inversion K as [|? ? K1 K2]; subst.
  constructor; [|apply IH; [intros x X; apply H; right; exact X|exact K2]]. intros Q. apply in_map_iff in Q as (x & E & X). apply K1.
  rewrite (stands_once l N d x); auto; [apply H; left; reflexivity|apply H; right; exact X].
Qed.

Lemma dict_twin : forall n i,
  match dict_get n (map (fun d => (def_name (dr_def d), d)) (module_drefs b i)), dict_get n (map (fun d => (def_name (dr_def d), d)) (module_drefs b' i)) with
  | Some d, Some d' => twin d d' | None, None => True | _, _ => False end.
Proof.
  intros n i. assert (N := keys_nodup ms _ (module_drefs b i) U (drefs_stand i) (drefs_nodup b i) eq_refl).
  assert (N' := keys_nodup ms' _ (module_drefs b' i) names_unique (drefs_stand' i) (drefs_nodup b' i) eq_refl).
  destruct (dict_get n (map _ (module_drefs b i))) as [d|] eqn:D.
  - apply dict_get_In in D. apply in_map_iff in D as (x & Q & X). injection Q as <- <-. destruct (twin_of _ _ X) as (y & Y & T).
    assert (J : In (def_name (dr_def x), y) (map (fun d => (def_name (dr_def d), d)) (module_drefs b' i))).
    { apply in_map_iff. exists y. split; [|exact Y]. destruct T as (_ & -> & _). reflexivity. }
    rewrite (dict_get_NoDup _ _ _ _ N' J). exact T.
  - destruct (dict_get n (map _ (module_drefs b' i))) as [d'|] eqn:D'; [|exact I].
    apply dict_get_In in D'. apply in_map_iff in D' as (x & Q & X). injection Q as <- <-. destruct (twin_of_r _ _ X) as (y & Y & T).
    assert (J : In (def_name (dr_def x), y) (map (fun d => (def_name (dr_def d), d)) (module_drefs b i))).
    { apply in_map_iff. exists y. split; [|exact Y]. destruct T as (_ & -> & _). reflexivity. }
    rewrite (dict_get_NoDup _ _ _ _ N J) in D. discriminate.
Qed.

Lemma packets_twin : forall fuel i l st st', twin_state st st' -> packets fuel b i l st = packets fuel b' i l st'.
Proof.
  intros fuel i l. induction l as [|n l IH]; intros st st' T; [reflexivity|]. cbn [packets].
  assert (D := dict_twin n i).
  destruct (dict_get n (map _ (module_drefs b i))) as [d|], (dict_get n (map _ (module_drefs b' i))) as [d'|]; try contradiction; [|reflexivity].
  apply rel_eq. eapply rel_bind; [apply items_twin; [exact D|exact T]|]. intros (es & st2) (es' & st2') (E & E'). cbn [fst snd] in E, E'. subst es'.
  apply rel_eq. rewrite (IH _ _ E'). destruct D as (_ & -> & _). reflexivity.
Qed.

Lemma modules_twin : Forall2 (fun bm bm' => reordered (bm_mod bm) (bm_mod bm')) (b_modules b) (b_modules b').
Proof.
  assert (A := build_modules _ _ B). assert (A' := build_modules _ _ B'). unfold all_modules in *. rewrite <- A, <- A' in F. clear - F.
  revert F. generalize (b_modules b) as l, (b_modules b') as l'. induction l as [|x l IH]; intros [|y l'] G; inversion G; subst; constructor; auto.
Qed.

Lemma cosmos_packets_twin : forall fuel mn msgs, cosmos_packets fuel b mn msgs = cosmos_packets fuel b' mn msgs.
Proof.
  intros fuel mn msgs. unfold cosmos_packets, get_module. assert (K := modules_twin).
  assert (Z : is_nil (b_modules b) = is_nil (b_modules b')) by (inversion K; reflexivity).
  assert (Ix : forall k, index_of mn k (b_modules b) = index_of mn k (b_modules b')).
  { clear - K. induction K as [|x y l l' S K IH]; intros k; [reflexivity|]. cbn [index_of]. unfold bm_name. rewrite (re_name _ _ S), IH. reflexivity. }
  assert (Fd : match find (fun bm => String.eqb (bm_name bm) mn) (b_modules b), find (fun bm => String.eqb (bm_name bm) mn) (b_modules b') with
    | Some x, Some y => reordered (bm_mod x) (bm_mod y) | None, None => True | _, _ => False end).
  { clear - K. induction K as [|x y l l' S K IH]; [exact I|]. cbn [find]. assert (E : bm_name y = bm_name x) by exact (re_name _ _ S). rewrite E.
    destruct (String.eqb (bm_name x) mn); [exact S|exact IH]. }
  rewrite Z, Ix. destruct (is_nil (b_modules b')); [reflexivity|]. cbn [bind].
  assert (Nd : is_nil (set_diff msgs match find (fun bm => String.eqb (bm_name bm) mn) (b_modules b) with Some bm => map def_name (mod_defs (bm_mod bm)) | None => [] end)
    = is_nil (set_diff msgs match find (fun bm => String.eqb (bm_name bm) mn) (b_modules b') with Some bm => map def_name (mod_defs (bm_mod bm)) | None => [] end)).
  { destruct (find _ (b_modules b)) as [x|], (find _ (b_modules b')) as [y|]; try contradiction; [|reflexivity]. apply eq_true_iff_eq. rewrite !set_diff_nil.
    assert (P := Permutation_map def_name (re_defs _ _ Fd)). split; intros H n Hn.
    - exact (Permutation_in _ P (H n Hn)).
    - exact (Permutation_in _ (Permutation_sym P) (H n Hn)). }
  rewrite Nd. destruct (assert _ _); [|reflexivity..]. cbn [bind]. destruct (index_of mn 0 (b_modules b')); [|reflexivity].
  apply packets_twin. intros d d' k _. reflexivity.
Qed.
End Cosmos.

Lemma last_resolve_reordered : forall A A', Forall2 reordered A A' -> last_imports_resolve A -> last_imports_resolve A'.
Proof.
  intros A A' F H i b it L Hit.
  assert (N : Forall2 (fun a b => mod_name b = mod_name a /\ mod_imports b = mod_imports a) A A').
  { clear - F. induction F as [|x y l l' S F IH]; constructor; [destruct S; auto|exact IH]. }
  destruct (same_last _ _ (same_flip _ _ N) _ _ L) as (a & La & Ea & Ia). rewrite <- Ia in Hit.
  destruct (H i a it La Hit) as (j & im & Lj & E & I). destruct (same_last _ _ N _ _ Lj) as (im' & Lj' & E' & _).
  exists j, im'. split; [exact Lj'|]. split; [congruence|].
  assert (S : reordered im im').
  { destruct Lj as (X & _), Lj' as (Y & _). destruct (reordered_nth _ _ _ _ F X) as (z & Z & S). congruence. }
  intros n Hn. apply (reordered_defined _ _ _ S), I, Hn.
Qed.

Theorem cosmos_reordered : forall mn msgs out input input' fuel fs, Forall (fun m => grammatical m = true) input ->
  Forall2 reordered input input' -> snd (run fuel (GenerateCosmos mn msgs out) input fs) = Ok tt ->
  run fuel (GenerateCosmos mn msgs out) input' fs = run fuel (GenerateCosmos mn msgs out) input fs.
Proof.
  intros mn msgs out input input' fuel fs G F H. cbn [run] in *. unfold with_bundle in *.
  destruct (build_from_cosmos_config input) as [b|e|] eqn:E; [|discriminate..]. clear H.
  assert (G' : Forall (fun m => grammatical m = true) input').
  { rewrite Forall_forall in *. intros m' M'. destruct (reordered_in _ _ m' (reordered_flip _ _ F) M') as (m & M & S).
    eapply reordered_grammatical; [apply reordered_sym; exact S|apply G, M]. }
  assert (V := proj1 (cosmos_accepted_any input G) (ex_intro _ b E)). destruct V as (V1 & V2 & V3 & V4).
  destruct (proj2 (cosmos_accepted_any input' G')) as (b' & E').
  { split; [eapply modules_valid; eassumption|]. split; [eapply last_resolve_reordered; eassumption|]. split; [eapply clauses_still_valid; eassumption|].
    eapply names_still_unique; eassumption. }
  rewrite E'. destruct (accepted_inv _ _ (or_intror E)) as (ms & Hp & Hb & _). destruct (accepted_inv _ _ (or_intror E')) as (ms' & Hp' & Hb' & _).
  unfold generate_cosmos. rewrite (cosmos_packets_twin ms ms' b b' Hb Hb'); [reflexivity|eapply parses_reordered; eassumption|].
  rewrite (same_definitions_names _ _ (same_definitions _ _ (parse_modules_same _ _ Hp))). exact V4.
Qed.

(** ** Rearranged files have the same length *)

Lemma parts_cons : forall f d l, parts f (d :: l) = (f d ++ parts f l)%string.
Proof. intros f d l. unfold parts. cbn [map]. apply sconcat_cons. Qed.
Lemma string_length_app : forall a b : string, String.length (a ++ b)%string = (String.length a + String.length b)%nat.
Proof. intros a b. induction a as [|x a IH]; [reflexivity|]. cbn. rewrite IH. reflexivity. Qed.
Lemma parts_length : forall f l l', Permutation l l' -> String.length (parts f l) = String.length (parts f l').
Proof.
  intros f l l' P. induction P as [|x l l' P IH|x y l|l1 l2 l3 P1 IH1 P2 IH2]; [reflexivity| | |congruence];
    rewrite !parts_cons, !string_length_app; lia.
Qed.
Lemma rearranged_length : forall m m' t t', reordered m m' -> rearranged m m' t t' -> String.length t = String.length t'.
Proof.
  intros m m' t t' S (a & b & c & d & f & g & h & l & l' & P & P' & -> & ->).
  assert (Q : Permutation l l').
  { eapply Permutation_trans; [apply Permutation_sym; exact P|]. eapply Permutation_trans; [apply S|exact P']. }
  rewrite !string_length_app, (parts_length f _ _ Q), (parts_length g _ _ Q), (parts_length h _ _ Q). reflexivity.
Qed.
