(** * Proofs: further definitions, the cosmos command (C94) *)
From Coq Require Import Permutation Lia.
From Verif Require Import Base PyNum PyStr Ast Size Processor Bundle GenCosmos Main
  Lib_proofs Spec_Check Check_proofs Spec_Grammar Spec_Bundle Bundle_proofs Accept_proofs Order_proofs Spec_Cosmos Cosmos_proofs Cosmos_runs_proofs Inputs2_proofs
  Spec_History Last_proofs Spec_Reorder Reorder_proofs Reorder_files_proofs Reorder_cosmos_proofs Spec_Grown Grown_proofs Grown_files_proofs.
Open Scope string_scope.
Open Scope list_scope.

(** The second computation gives a related result whenever the first one gives one. *)
Definition fwd {A B} (R : A -> B -> Prop) (x : result A) (y : result B) : Prop := forall a, x = Ok a -> exists b, y = Ok b /\ R a b.
Lemma fwd_bind : forall A B C D (R : A -> B -> Prop) (S : C -> D -> Prop) x y f g, fwd R x y -> (forall a b, R a b -> fwd S (f a) (g b)) ->
  fwd S (bind x f) (bind y g).
Proof.
  intros A B C D R S x y f g H K c E. apply bind_ok in E as (a & X & E). destruct (H a X) as (b & -> & Q). cbn [bind]. exact (K a b Q c E).
Qed.
Lemma fwd_ok : forall A B (R : A -> B -> Prop) a b, R a b -> fwd R (Ok a) (Ok b).
Proof. intros A B R a b H x E. injection E as <-. eauto. Qed.
Lemma fwd_rel : forall A B (R : A -> B -> Prop) x y, rel R x y -> fwd R x y.
Proof. intros A B R x y [a b H| |]; [apply fwd_ok, H|intros z E; discriminate..]. Qed.
Lemma fwd_refl : forall A (x : result A), fwd eq x x.
Proof. intros A x a E. eauto. Qed.
Lemma fwd_err : forall A B (R : A -> B -> Prop) e y, fwd R (Err e) y.
Proof. intros A B R e y a E. discriminate. Qed.
Lemma fwd_fuel : forall A B (R : A -> B -> Prop) y, fwd R OutOfFuel y.
Proof. intros A B R y a E. discriminate. Qed.

Section Cosmos.
Variables (ms ms' : list module) (b b' : bundle).
Hypothesis B : build ms = Ok b.
Hypothesis B' : build ms' = Ok b'.
Hypothesis F : Forall2 grown ms ms'.
Hypothesis U' : NoDup (map def_name (definitions ms')).

Lemma fewer_unique : NoDup (map def_name (definitions ms)).
Proof. eapply inserted_nodup; [apply inserted_map, grown_definitions; exact F|exact U']. Qed.

(** The same definition in both. *)
Definition mate (d d' : dref) : Prop := dr_mod d = dr_mod d' /\ dr_def d = dr_def d' /\ stands ms d /\ stands ms' d'.

Lemma same_object_mate : forall x x' y y', mate x x' -> mate y y' -> same_object x y = same_object x' y'.
Proof.
  intros x x' y y' (A1 & A2 & A3 & A4) (C1 & C2 & C3 & C4).
  assert (K : forall l u v, stands l u -> stands l v -> NoDup (map def_name (definitions l)) -> same_object u v = true -> u = v).
  { intros l u v Su Sv N H. unfold same_object in H. apply andb_true_iff in H as (H1 & H2). apply Nat.eqb_eq in H1, H2.
    destruct Su as (m & M & P), Sv as (m' & M' & P'). rewrite H1 in M. assert (m' = m) as -> by congruence. rewrite H2 in P.
    destruct u, v; cbn in *; congruence. }
  assert (R : forall u, same_object u u = true) by (intros u; unfold same_object; rewrite !Nat.eqb_refl; reflexivity).
  destruct (same_object x y) eqn:E, (same_object x' y') eqn:E'; auto; exfalso.
  - apply (K ms) in E; auto using fewer_unique. subst y. assert (Q : x' = y') by (apply (stands_once ms' U'); auto; congruence). subst y'. rewrite R in E'. discriminate.
  - apply (K ms') in E'; auto. subst y'. assert (Q : x = y) by (apply (stands_once ms fewer_unique); auto; congruence). subst y. rewrite R in E. discriminate.
Qed.

Lemma filter_mate : forall f g l l', Forall2 mate l l' -> (forall x x', mate x x' -> f x = g x') -> Forall2 mate (filter f l) (filter g l').
Proof.
  intros f g l l' T K. induction T as [|x x' l l' H T IH]; [constructor|]. cbn [filter]. rewrite (K _ _ H).
  destruct (g x'); [constructor; assumption|exact IH].
Qed.
Lemma dedup_mate : forall l l', Forall2 mate l l' -> Forall2 mate (dedup_drefs l) (dedup_drefs l').
Proof.
  intros l l' T. induction T as [|x x' l l' H T IH]; [constructor|]. cbn [dedup_drefs]. constructor; [exact H|].
  apply filter_mate; [exact IH|]. intros y y' Y. rewrite (same_object_mate _ _ _ _ H Y). reflexivity.
Qed.

Lemma mate_of : forall i d, In d (module_drefs b i) -> exists d', In d' (module_drefs b' i) /\ mate d d'.
Proof.
  intros i d H. apply (module_drefs_In ms b B) in H as (E & m & M & P). destruct (grown_nth _ _ _ _ F M) as (m' & M' & S).
  assert (D : In (dr_def d) (mod_defs m')) by (eapply grown_def; [exact S|]; eapply nth_error_In; exact P).
  apply In_nth_error in D as (p & P'). exists (mkdref i p (dr_def d)). split.
  - apply (module_drefs_In ms' b' B'). cbn. split; [reflexivity|]. eauto.
  - split; [exact E|]. split; [reflexivity|]. split; [exists m; rewrite E; auto|exists m'; cbn; auto].
Qed.
Definition old (n : string) : Prop := In n (map def_name (definitions ms)).
Lemma mate_of_r : forall i d', In d' (module_drefs b' i) -> old (def_name (dr_def d')) -> exists d, In d (module_drefs b i) /\ mate d d'.
Proof.
  intros i d H O. apply (module_drefs_In ms' b' B') in H as (E & m' & M' & P). destruct (grown_nth_r _ _ _ _ F M') as (m & M & S).
  assert (D : In (dr_def d) (mod_defs m)) by (eapply (old_name ms ms'); [exact F|exact U'|exact M|exact M'|eapply nth_error_In; exact P|exact O]).
  apply In_nth_error in D as (p & P'). exists (mkdref i p (dr_def d)). split.
  - apply (module_drefs_In ms b B). cbn. split; [reflexivity|]. eauto.
  - split; [symmetry; exact E|]. split; [reflexivity|]. split; [exists m; cbn; auto|exists m'; rewrite E; auto].
Qed.
Lemma old_dref : forall i d, In d (module_drefs b i) -> old (def_name (dr_def d)).
Proof.
  intros i d H. apply (module_drefs_In ms b B) in H as (E & m & M & P). apply in_map. unfold definitions. apply in_flat_map. exists m.
  split; eapply nth_error_In; eassumption.
Qed.

Lemma named_mate : forall n i, old n -> Forall2 mate (filter (fun d => String.eqb (def_name (dr_def d)) n) (module_drefs b i))
  (filter (fun d => String.eqb (def_name (dr_def d)) n) (module_drefs b' i)).
Proof.
  intros n i O. set (f := fun d => String.eqb (def_name (dr_def d)) n).
  assert (S1 : filter f (module_drefs b i) = [] \/ exists x, filter f (module_drefs b i) = [x]).
  { apply short_list; [apply NoDup_filter, drefs_nodup|]. intros x y X Y. apply filter_In in X as (X & Ex), Y as (Y & Ey). apply String.eqb_eq in Ex, Ey.
    apply (stands_once ms fewer_unique); eauto using drefs_stand. congruence. }
  assert (S2 : filter f (module_drefs b' i) = [] \/ exists x, filter f (module_drefs b' i) = [x]).
  { apply short_list; [apply NoDup_filter, drefs_nodup|]. intros x y X Y. apply filter_In in X as (X & Ex), Y as (Y & Ey). apply String.eqb_eq in Ex, Ey.
    apply (stands_once ms' U'); eauto using drefs_stand. congruence. }
  assert (L : forall x, In x (filter f (module_drefs b i)) -> exists y, In y (filter f (module_drefs b' i)) /\ mate x y).
  { intros x X. apply filter_In in X as (X & E). destruct (mate_of _ _ X) as (y & Y & T). exists y. split; [|exact T]. apply filter_In. split; [exact Y|].
    unfold f in *. destruct T as (_ & <- & _). exact E. }
  assert (R : forall y, In y (filter f (module_drefs b' i)) -> exists x, In x (filter f (module_drefs b i)) /\ mate x y).
  { intros x X. apply filter_In in X as (X & E). destruct (mate_of_r _ _ X ltac:(apply String.eqb_eq in E; rewrite E; exact O)) as (y & Y & T). exists y. split; [|exact T]. apply filter_In. split; [exact Y|].
    unfold f in *. destruct T as (_ & -> & _). exact E. }
  revert L R. destruct S1 as [->|(x & ->)], S2 as [->|(y & ->)]; intros L R.
  - constructor.
  - destruct (R y (or_introl eq_refl)) as (x & [] & _).
  - destruct (L x (or_introl eq_refl)) as (y & [] & _).
  - destruct (L x (or_introl eq_refl)) as (y' & [<-|[]] & T). constructor; [exact T|constructor].
Qed.

Lemma modules_nth : forall i, match nth_error (b_modules b) i, nth_error (b_modules b') i with
  | Some bm, Some bm' => grown (bm_mod bm) (bm_mod bm') /\ bm_imported bm' = bm_imported bm | None, None => True | _, _ => False end.
Proof. intros i. exact (bmodule_grown ms ms' b b' i F B B'). Qed.

Lemma recurs_mate : forall fuel n i, old n -> rel (Forall2 mate) (definitions_recurs fuel b n i) (definitions_recurs fuel b' n i).
Proof.
  induction fuel as [|fuel IH]; intros n i O; [constructor|]. cbn [definitions_recurs].
  assert (Im : match nth_error (b_modules b') i with Some bm => bm_imported bm | None => [] end = match nth_error (b_modules b) i with Some bm => bm_imported bm | None => [] end).
  { assert (K := modules_nth i). destruct (nth_error (b_modules b) i), (nth_error (b_modules b') i); try contradiction; [apply K|reflexivity]. }
  rewrite Im. eapply rel_bind.
  - apply (rel_map _ _ _ _ eq); [|intros j j' <-; apply IH, O]. generalize (match nth_error (b_modules b) i with Some bm => bm_imported bm | None => [] end).
    intros l. induction l; constructor; auto.
  - intros x y X. constructor. apply dedup_mate. rewrite !filter_app. apply Forall2_app; [apply named_mate, O|].
    apply filter_mate; [apply Forall2_concat, X|]. intros d d' (_ & -> & _). reflexivity.
Qed.

Lemma recurs_in : forall fuel n i l d, definitions_recurs fuel b n i = Ok l -> In d l -> def_name (dr_def d) = n /\ old n.
Proof.
  assert (De : forall l x, In x (dedup_drefs l) -> In x l).
  { induction l as [|y l IH]; intros x X; [destruct X|]. cbn [dedup_drefs] in X. destruct X as [X|X]; [left; exact X|]. apply filter_In in X. right. apply IH, X. }
  induction fuel as [|fuel IH]; intros n i l d H D; [discriminate|]. cbn [definitions_recurs] in H. apply bind_ok in H as (im & Im & H). injection H as <-.
  apply De, filter_In in D as (D & E). apply String.eqb_eq in E. split; [exact E|]. apply in_app_iff in D as [D|D]; [rewrite <- E; eapply old_dref; exact D|].
  unfold flatten in D. apply in_concat in D as (x & X & D). apply map_result_ok in Im. destruct (Forall2_in_right _ _ _ _ _ _ Im X) as (j & J & Q).
  apply (IH _ _ _ _ Q D).
Qed.

Lemma definition_mate : forall fuel n i, fwd mate (get_definition fuel b n i) (get_definition fuel b' n i).
Proof.
  intros fuel n i d H. assert (O : old n).
  { unfold get_definition in H. apply bind_ok in H as (l & L & H). destruct l as [|x [|y l]]; try discriminate. exact (proj2 (recurs_in _ _ _ _ x L (or_introl eq_refl))). }
  revert d H. change (fwd mate (get_definition fuel b n i) (get_definition fuel b' n i)).
  unfold get_definition. eapply fwd_bind; [apply fwd_rel, recurs_mate, O|]. intros l l' T.
  destruct T as [|x x' l l' X T]; [apply fwd_err|]. destruct T; [apply fwd_ok; exact X|apply fwd_err].
Qed.

Definition mate_info (x y : leaf_info) : Prop :=
  match x, y with Nested d, Nested d' => mate d d' | Leaf s c p q, Leaf s' c' p' q' => s = s' /\ c = c' /\ p = p' /\ q = q' | _, _ => False end.

Lemma info_mate : forall fuel i t, fwd mate_info (member_info fuel b i t) (member_info fuel b' i t).
Proof.
  intros fuel i t. unfold member_info.
  assert (K : fwd mate_info
    (let* d := get_definition fuel b (type_name t) i in
     match dr_def d with DSimple _ t' _ => Ok (Leaf [] (get_c_type t') (type_begin t') (type_end t'))
     | DEnumerated _ _ l => Ok (Leaf (map e_key l) (Some A_UINT) (Some (NInt 0)) (Some (NInt (Z.of_nat (List.length l) - 1))))
     | _ => Ok (Nested d) end)
    (let* d := get_definition fuel b' (type_name t) i in
     match dr_def d with DSimple _ t' _ => Ok (Leaf [] (get_c_type t') (type_begin t') (type_end t'))
     | DEnumerated _ _ l => Ok (Leaf (map e_key l) (Some A_UINT) (Some (NInt 0)) (Some (NInt (Z.of_nat (List.length l) - 1))))
     | _ => Ok (Nested d) end)).
  { eapply fwd_bind; [apply definition_mate|]. intros d d' D. assert (E := proj1 (proj2 D)). rewrite <- E.
    destruct (dr_def d); apply fwd_ok; cbn [mate_info]; auto. }
  destruct (mem _ _); [apply fwd_ok; cbn; auto|]. destruct (String.eqb _ _); [apply fwd_ok; cbn; auto|].
  destruct t; try exact K. apply fwd_ok; cbn; auto.
Qed.

(** States that hold the same lists. *)
Definition mate_state (st st' : cstate) : Prop :=
  forall d d' k, mate d d' -> state_get st (dr_mod d) (dr_pos d) k = state_get st' (dr_mod d') (dr_pos d') k.

Lemma set_mate : forall st st' d d' k l, mate_state st st' -> mate d d' ->
  mate_state (state_set st (dr_mod d) (dr_pos d) k l) (state_set st' (dr_mod d') (dr_pos d') k l).
Proof.
  intros st st' d d' k l T D x x' j X. cbn [state_set state_get].
  change (Nat.eqb (dr_mod d) (dr_mod x) && Nat.eqb (dr_pos d) (dr_pos x)) with (same_object d x).
  change (Nat.eqb (dr_mod d') (dr_mod x') && Nat.eqb (dr_pos d') (dr_pos x')) with (same_object d' x').
  rewrite (same_object_mate _ _ _ _ D X), (T x x' j X). reflexivity.
Qed.

Lemma hand_mate : forall st st' d d' k m g, mate_state st st' -> mate d d' ->
  fst (hand_down st (dr_mod d) (dr_pos d) k m g) = fst (hand_down st' (dr_mod d') (dr_pos d') k m g)
  /\ mate_state (snd (hand_down st (dr_mod d) (dr_pos d) k m g)) (snd (hand_down st' (dr_mod d') (dr_pos d') k m g)).
Proof.
  intros st st' d d' k m g T D. unfold hand_down, own_components. rewrite (T d d' k D).
  destruct (m_with m) as [w|]; [destruct (state_get st' (dr_mod d') (dr_pos d') k)|]; destruct g as [[z|f|v|w']|]; cbn [fst snd]; split; auto;
    apply set_mate; assumption.
Qed.

Definition mate_items (x y : list entry * cstate) : Prop := fst x = fst y /\ mate_state (snd x) (snd y).

Lemma items_mate : forall fuel root d d' w st st', mate d d' -> mate_state st st' ->
  fwd mate_items (items_of fuel b root d w st) (items_of fuel b' root d' w st').
Proof.
  induction fuel as [|fuel IH]; intros root d d' w st st' D T; [apply fwd_fuel|]. cbn [items_of].
  assert (E := proj1 (proj2 D)). rewrite <- E. destruct (dr_def d) as [n c ms0|n c l|n c l|n t c]; try apply fwd_err. clear E.
  revert st st' T. generalize 0%nat as k. induction ms0 as [|m r IHr]; intros k st st' T; [apply fwd_ok; split; [reflexivity|exact T]|].
  destruct (hand_mate st st' d d' k m (given_value w (m_key m)) T D) as (H1 & H2).
  destruct (hand_down st (dr_mod d) (dr_pos d) k m (given_value w (m_key m))) as (down, st1).
  destruct (hand_down st' (dr_mod d') (dr_pos d') k m (given_value w (m_key m))) as (down', st1'). cbn [fst snd] in H1, H2. subst down'.
  eapply fwd_bind; [apply info_mate|]. intros x y X.
  eapply (fwd_bind _ _ _ _ mate_items).
  - destruct x as [x|s cc p q], y as [y|s' cc' p' q']; cbn [mate_info] in X; try contradiction.
    + apply IH; assumption.
    + destruct X as (-> & -> & -> & ->). destruct (leaf_entry _ _ _ _ _ _); [|apply fwd_err|apply fwd_fuel]. apply fwd_ok. split; [reflexivity|exact H2].
  - intros (es & st2) (es' & st2') (E1 & E2). cbn [fst snd] in E1, E2. subst es'.
    eapply (fwd_bind _ _ _ _ mate_items); [apply IHr, E2|]. intros (rs & st3) (rs' & st3') (E3 & E4). cbn [fst snd] in E3, E4. subst rs'.
    apply fwd_ok. split; [reflexivity|exact E4].
Qed.

Lemma dict_mate : forall n i d, dict_get n (map (fun d => (def_name (dr_def d), d)) (module_drefs b i)) = Some d ->
  exists d', dict_get n (map (fun d => (def_name (dr_def d), d)) (module_drefs b' i)) = Some d' /\ mate d d'.
Proof.
  intros n i d D. assert (N' := keys_nodup ms' _ (module_drefs b' i) U' (drefs_stand ms' b' B' i) (drefs_nodup b' i) eq_refl).
  apply dict_get_In in D. apply in_map_iff in D as (x & Q & X). injection Q as <- <-. destruct (mate_of _ _ X) as (y & Y & T). exists y. split; [|exact T].
  apply dict_get_NoDup; [exact N'|]. apply in_map_iff. exists y. split; [|exact Y]. destruct T as (_ & -> & _). reflexivity.
Qed.

Lemma packets_mate : forall fuel i l st st', mate_state st st' -> fwd eq (packets fuel b i l st) (packets fuel b' i l st').
Proof.
  intros fuel i l. induction l as [|n l IH]; intros st st' T; [apply fwd_refl|]. cbn [packets].
  destruct (dict_get n (map _ (module_drefs b i))) as [d|] eqn:D; [|apply fwd_err]. destruct (dict_mate _ _ _ D) as (d' & -> & P).
  eapply fwd_bind; [apply items_mate; [exact P|exact T]|]. intros (es & st2) (es' & st2') (E & E'). cbn [fst snd] in E, E'. subst es'.
  eapply fwd_bind; [apply (IH _ _ E')|]. intros r r' <-. apply fwd_ok. destruct P as (_ & -> & _). reflexivity.
Qed.

Lemma modules_mate : Forall2 (fun bm bm' => grown (bm_mod bm) (bm_mod bm')) (b_modules b) (b_modules b').
Proof.
  assert (A := build_modules _ _ B). assert (A' := build_modules _ _ B'). unfold all_modules in *. rewrite <- A, <- A' in F. clear - F.
  revert F. generalize (b_modules b) as l, (b_modules b') as l'. induction l as [|x l IH]; intros [|y l'] G; inversion G; subst; constructor; auto.
Qed.

Lemma cosmos_packets_mate : forall fuel mn msgs, fwd eq (cosmos_packets fuel b mn msgs) (cosmos_packets fuel b' mn msgs).
Proof.
  intros fuel mn msgs. unfold cosmos_packets, get_module. assert (K := modules_mate).
  assert (Z : is_nil (b_modules b) = is_nil (b_modules b')) by (inversion K; reflexivity).
  assert (Ix : forall k, index_of mn k (b_modules b) = index_of mn k (b_modules b')).
  { clear - K. induction K as [|x y l l' S K IH]; intros k; [reflexivity|]. cbn [index_of]. unfold bm_name. rewrite (gr_name _ _ S), IH. reflexivity. }
  assert (Fd : match find (fun bm => String.eqb (bm_name bm) mn) (b_modules b), find (fun bm => String.eqb (bm_name bm) mn) (b_modules b') with
    | Some x, Some y => grown (bm_mod x) (bm_mod y) | None, None => True | _, _ => False end).
  { clear - K. induction K as [|x y l l' S K IH]; [exact I|]. cbn [find]. assert (E : bm_name y = bm_name x) by exact (gr_name _ _ S). rewrite E.
    destruct (String.eqb (bm_name x) mn); [exact S|exact IH]. }
  rewrite Z, Ix. destruct (is_nil (b_modules b')); [apply fwd_refl|]. cbn [bind].
  assert (Nd : is_nil (set_diff msgs match find (fun bm => String.eqb (bm_name bm) mn) (b_modules b) with Some bm => map def_name (mod_defs (bm_mod bm)) | None => [] end) = true ->
    is_nil (set_diff msgs match find (fun bm => String.eqb (bm_name bm) mn) (b_modules b') with Some bm => map def_name (mod_defs (bm_mod bm)) | None => [] end) = true).
  { destruct (find _ (b_modules b)) as [x|], (find _ (b_modules b')) as [y|]; try contradiction; [|auto]. rewrite !set_diff_nil.
    intros H n Hn. exact (inserted_incl _ _ _ (inserted_map _ _ def_name _ _ (gr_defs _ _ Fd)) _ (H n Hn)). }
  match type of Nd with ?z = true -> _ => destruct z eqn:Z1; [|apply fwd_err] end. rewrite (Nd eq_refl). cbn [assert bind].
  destruct (index_of mn 0 (b_modules b')); [|apply fwd_refl].
  apply (packets_mate fuel n msgs [] []). intros d d' k _. reflexivity.
Qed.
End Cosmos.

Lemma last_resolve_grown : forall A A', Forall2 grown A A' -> last_imports_resolve A -> last_imports_resolve A'.
Proof.
  intros A A' F H i b it L Hit.
  assert (N : Forall2 (fun a b => mod_name b = mod_name a /\ mod_imports b = mod_imports a) A A').
  { clear - F. induction F as [|x y l l' S F IH]; constructor; [destruct S; auto|exact IH]. }
  destruct (same_last _ _ (same_flip _ _ N) _ _ L) as (a & La & Ea & Ia). rewrite <- Ia in Hit.
  destruct (H i a it La Hit) as (j & im & Lj & E & I). destruct (same_last _ _ N _ _ Lj) as (im' & Lj' & E' & _).
  exists j, im'. split; [exact Lj'|]. split; [congruence|].
  assert (S : grown im im').
  { destruct Lj as (X & _), Lj' as (Y & _). destruct (grown_nth _ _ _ _ F X) as (z & Z & S). congruence. }
  intros n Hn. exact (inserted_incl _ _ _ (inserted_map _ _ def_name _ _ (gr_defs _ _ S)) _ (I n Hn)).
Qed.

Theorem cosmos_grown : forall mn msgs out input input' fuel fs, Forall (fun m => grammatical m = true) input ->
  Forall (fun m => grammatical m = true) input' -> Forall2 grown input input' ->
  Forall module_valid input' -> clauses_valid (definitions input') -> NoDup (map def_name (definitions input')) ->
  snd (run fuel (GenerateCosmos mn msgs out) input fs) = Ok tt ->
  run fuel (GenerateCosmos mn msgs out) input' fs = run fuel (GenerateCosmos mn msgs out) input fs.
Proof.
  intros mn msgs out input input' fuel fs G G' F V1 V2 V3 H. cbn [run] in *. unfold with_bundle in *.
  destruct (build_from_cosmos_config input) as [b|e|] eqn:E; [|discriminate..].
  assert (V := proj1 (cosmos_accepted_any input G) (ex_intro _ b E)). destruct V as (_ & W & _).
  destruct (proj2 (cosmos_accepted_any input' G')) as (b' & E').
  { split; [exact V1|]. split; [eapply last_resolve_grown; eassumption|]. split; assumption. }
  rewrite E'.
  destruct (accepted_inv _ _ (or_intror E)) as (ms & Hp & Hb & _). destruct (accepted_inv _ _ (or_intror E')) as (ms' & Hp' & Hb' & _).
  assert (N : NoDup (map def_name (definitions ms'))) by (rewrite (same_definitions_names _ _ (same_definitions _ _ (parse_modules_same _ _ Hp'))); exact V3).
  unfold generate_cosmos in *. destruct (cosmos_packets fuel b mn msgs) as [l|e|] eqn:P; try discriminate H.
  destruct (cosmos_packets_mate ms ms' b b' Hb Hb' (parses_grown _ _ _ _ F Hp Hp') N fuel mn msgs l P) as (l' & -> & <-).
  reflexivity.
Qed.

(** ** How much longer a file is *)

Lemma inserted_length : forall A (l l' : list A), inserted l l' -> (List.length l <= List.length l')%nat /\ (List.length l = List.length l' -> l = l').
Proof.
  intros A l l' H. induction H as [|x l l' H (I1 & I2)|x l l' H (I1 & I2)]; cbn [List.length]; [auto| |].
  - split; [lia|]. intros E. f_equal. apply I2. lia.
  - split; [lia|]. intros E. lia.
Qed.
Lemma same_module_length : forall m t t', extended_header (fun _ => True) m m t t' -> (String.length t' <= String.length t + 43)%nat.
Proof.
  intros m t t' (a & b & c & z & e & e' & x & y & x' & y' & f & f' & g & h & l & l' & (P & P' & J) & X & Y & E & S & -> & ->).
  assert (l = l') as <-.
  { apply (inserted_length _ _ _ J). rewrite <- (Permutation_length P), <- (Permutation_length P'). reflexivity. }
  rewrite (parts_same f' f l) by (intros d D; apply S; auto). rewrite !string_length_app.
  assert (Se : (String.length e' <= String.length e + 1)%nat) by (destruct E as [->|(-> & ->)]; cbn; lia).
  assert (Ss : (String.length (standard_lines x' y') <= String.length (standard_lines x y) + 42)%nat) by (destruct x', y', x, y; vm_compute; lia).
  lia.
Qed.
