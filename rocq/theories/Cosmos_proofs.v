(** * Proofs: COSMOS packets *)
From Coq Require Import ZifyBool ZifyNat ZifyN Lia QArith Qpower.
From Verif Require Import Base PyNum PyStr Ast Size Processor Bundle GenCosmos Lib_proofs Spec_Enum Enum_proofs
  Spec_Grammar Spec_Num Num_proofs Spec_Check Check_proofs Spec_Bundle Bundle_proofs Reject_proofs
  Spec_Size Accept_proofs Size_proofs Field_proofs Spec_Layout Layout_proofs Spec_Binary Binary_proofs Spec_Cosmos.
Open Scope Z_scope.

(** ** Imports *)

Lemma last_index_from_last : forall n l i j, last_index_from i n l = Some j ->
  forall k m, (j < i + k)%nat -> nth_error l k = Some m -> mod_name m <> n.
Proof.
  intros n. induction l as [|m r IH]; intros i j H k x L Hk; simpl in H; [discriminate|].
  destruct (last_index_from (S i) n r) as [j'|] eqn:E.
  - injection H as <-. destruct k as [|k].
    + destruct (last_index_from_some _ _ _ _ E) as (k & y & -> & _). lia.
    + apply (IH (S i) j' E k x); [lia|exact Hk].
  - destruct (String.eqb n (mod_name m)) eqn:En; [|discriminate]. injection H as <-.
    destruct k as [|k]; [lia|]. simpl in Hk. apply last_index_from_none in E. intros <-. apply E.
    apply in_map. eapply nth_error_In. exact Hk.
Qed.

Lemma last_index_last : forall ms n i, last_index n ms = Some i <-> exists m, last_named ms i m /\ mod_name m = n.
Proof.
  intros ms n i. split.
  - intros H. destruct (last_index_some _ _ _ H) as (m & Hm & <-). exists m. split; [|reflexivity]. split; [exact Hm|].
    intros j m' L Hj. exact (last_index_from_last _ _ _ _ H j m' L Hj).
  - intros (m & (Hm & L) & <-).
    destruct (last_index_In (mod_name m) ms) as (j & Hj); [apply in_map; eapply nth_error_In; exact Hm|].
    destruct (last_index_some _ _ _ Hj) as (m' & Hm' & E).
    destruct (Nat.lt_trichotomy i j) as [A|[->|A]]; [|exact Hj|].
    + exfalso. exact (L j m' A Hm' E).
    + exfalso. exact (last_index_from_last _ _ _ _ Hj i m A Hm eq_refl).
Qed.

Lemma imported_of_imports : forall ms i m j, nth_error ms i = Some m ->
  (In j (imported_of ms i m) <-> imports_module ms i j).
Proof.
  intros ms i m j Hi. unfold imported_of. split.
  - intros H. destruct (last_index (mod_name m) ms) as [i'|] eqn:E; [|destruct H].
    destruct (Nat.eqb_spec i i') as [<-|]; [|destruct H]. apply in_flat_map in H. destruct H as (n & Hn & H).
    destruct (last_index n ms) as [j'|] eqn:Ej; [|destruct H]. destruct H as [<-|[]].
    apply last_index_last in E. destruct E as (m' & Lm & _). assert (m' = m) by (destruct Lm; congruence). subst m'.
    apply last_index_last in Ej. destruct Ej as (mj & Lj & <-).
    unfold dependencies in Hn. apply in_map_iff in Hn. destruct Hn as (it & Eit & Hit). exists m, mj, it. auto.
  - intros (m' & mj & it & Li & Lj & Hit & Eit). assert (m' = m) by (destruct Li; congruence). subst m'.
    rewrite (proj2 (last_index_last ms (mod_name m) i)) by (exists m; auto). rewrite Nat.eqb_refl.
    apply in_flat_map. exists (mod_name mj). split; [unfold dependencies; apply in_map_iff; exists it; auto|].
    rewrite (proj2 (last_index_last ms (mod_name mj) j)) by (exists mj; auto). left. reflexivity.
Qed.

Lemma reaches_inv : forall ms i k, reaches_module ms i k -> i = k \/ exists j, imports_module ms i j /\ reaches_module ms j k.
Proof. intros ms i k R. destruct R as [i|i j k Hj R]; [left; reflexivity|right; eauto]. Qed.

(** ** Definitions by name *)

Lemma number_defs_In : forall mi l i r, In r (number_defs mi i l) <->
  dr_mod r = mi /\ exists k, dr_pos r = (i + k)%nat /\ nth_error l k = Some (dr_def r).
Proof.
  intros mi. induction l as [|d l IH]; intros i r; simpl.
  - split; [tauto|]. intros (_ & k & _ & H). destruct k; discriminate.
  - rewrite IH. split.
    + intros [<-|(E & k & Ep & H)]; simpl; [split; [reflexivity|]; exists O; simpl; split; [lia|reflexivity]|].
      split; [exact E|]. exists (S k). simpl. split; [lia|exact H].
    + intros (E & [|k] & Ep & H); simpl in H.
      * left. injection H as ->. destruct r. simpl in *. subst. f_equal. lia.
      * right. split; [exact E|]. exists k. split; [lia|exact H].
Qed.

Section Bundle.
Variable ms : list module.
Variable b : bundle.
Hypothesis Hb : build ms = Ok b.

Lemma module_drefs_In : forall i r, In r (module_drefs b i) <->
  dr_mod r = i /\ exists m, nth_error ms i = Some m /\ nth_error (mod_defs m) (dr_pos r) = Some (dr_def r).
Proof.
  intros i r. unfold module_drefs. rewrite (build_nth _ _ i Hb). destruct (nth_error ms i) as [m|]; simpl.
  - rewrite number_defs_In. simpl. split.
    + intros (E & k & Ep & H). split; [exact E|]. exists m. rewrite Ep. auto.
    + intros (E & m' & Em & H). injection Em as <-. split; [exact E|]. exists (dr_pos r). auto.
  - split; [tauto|]. intros (_ & m & E & _). discriminate.
Qed.

(** A reference to a definition that is visible from module [i]. *)
Definition visible_ref (i : nat) (r : dref) : Prop :=
  reaches_module ms i (dr_mod r)
  /\ exists m, nth_error ms (dr_mod r) = Some m /\ nth_error (mod_defs m) (dr_pos r) = Some (dr_def r).

Lemma visible_ref_visible : forall i r, visible_ref i r -> visible ms i (dr_def r).
Proof.
  intros i r (R & m & Hm & H). exists (dr_mod r), m. split; [exact R|]. split; [exact Hm|]. eapply nth_error_In. exact H.
Qed.

Lemma visible_visible_ref : forall i d, visible ms i d -> exists r, visible_ref i r /\ dr_def r = d.
Proof.
  intros i d (j & m & R & Hm & Hd). apply In_nth_error in Hd. destruct Hd as (k & Hk).
  exists (mkdref j k d). split; [|reflexivity]. split; [exact R|]. exists m. auto.
Qed.

Lemma same_object_eq : forall i x y, visible_ref i x -> visible_ref i y -> (same_object x y = true <-> x = y).
Proof.
  intros i x y (_ & m & Hm & Hx) (_ & m' & Hm' & Hy). unfold same_object. rewrite andb_true_iff, !Nat.eqb_eq. split.
  - intros (E1 & E2). destruct x, y. simpl in *. subst. assert (m' = m) by congruence. subst. congruence.
  - intros <-. auto.
Qed.

Lemma dedup_drefs_spec : forall i l, Forall (visible_ref i) l ->
  (forall x, In x (dedup_drefs l) <-> In x l) /\ NoDup (dedup_drefs l).
Proof.
  intros i. induction l as [|x l IH]; intros F; simpl; [split; [tauto|constructor]|].
  inversion F as [|? ? Fx Fl]; subst. destruct (IH Fl) as (I & N). rewrite Forall_forall in Fl. split.
  - intros y. rewrite filter_In, I. split; [tauto|]. intros [E|H]; [left; exact E|].
    destruct (same_object x y) eqn:E; [|right; auto]. left. apply (same_object_eq i); auto.
  - constructor; [|apply NoDup_filter; exact N]. rewrite filter_In. intros (_ & E).
    rewrite (proj2 (same_object_eq i x x Fx Fx) eq_refl) in E. discriminate.
Qed.

Lemma definitions_recurs_spec : forall fuel n i l, definitions_recurs fuel b n i = Ok l ->
  (forall r, In r l <-> visible_ref i r /\ def_name (dr_def r) = n) /\ NoDup l.
Proof.
  induction fuel as [|fuel IH]; intros n i l H; [discriminate|]. cbn [definitions_recurs] in H.
  apply bind_ok in H. destruct H as (imp & Himp & H). injection H as <-.
  rewrite (build_nth _ _ i Hb) in Himp.
  set (all := filter (fun d => String.eqb (def_name (dr_def d)) n) (module_drefs b i ++ flatten imp)).
  assert (A : forall r, In r all <-> visible_ref i r /\ def_name (dr_def r) = n).
  { intros r. unfold all. rewrite filter_In, in_app_iff, String.eqb_eq.
    assert (X : forall r, def_name (dr_def r) = n -> (In r (flatten imp) <->
      exists j, imports_module ms i j /\ visible_ref j r)).
    { clear r. intros r Er. destruct (nth_error ms i) as [m|] eqn:Em; simpl in Himp.
      - apply map_result_ok in Himp. unfold flatten. rewrite in_concat. split.
        + intros (x & Hx & Hr). destruct (Forall2_in_r _ _ _ _ _ _ Himp Hx) as (j & Hj & Ej).
          exists j. split; [apply (imported_of_imports ms i m); assumption|]. apply (proj1 (IH _ _ _ Ej) r). exact Hr.
        + intros (j & Hj & Vj). apply (imported_of_imports ms i m) in Hj; [|exact Em].
          destruct (Forall2_in_l _ _ _ _ _ _ Himp Hj) as (x & Hx & Ej). exists x. split; [exact Hx|].
          apply (proj1 (IH _ _ _ Ej) r). auto.
      - injection Himp as <-. split; [intros []|]. intros (j & (m & ? & ? & (E & _) & _) & _). congruence. }
    rewrite module_drefs_In. split.
    - intros ([(E & m & Em & Hr)|H] & En).
      + split; [|exact En]. split; [rewrite E; constructor|]. exists m. rewrite E. auto.
      + apply X in H; [|exact En]. destruct H as (j & Hj & (R & m & Em & Hr)). split; [|exact En].
        split; [apply reach_import with j; assumption|]. exists m. auto.
    - intros ((R & m & Em & Hr) & En). split; [|exact En].
      apply reaches_inv in R. destruct R as [E|(j & Hj & R')].
      + left. split; [auto|]. exists m. rewrite E. auto.
      + right. apply X; [exact En|]. exists j. split; [exact Hj|]. split; [exact R'|]. exists m. auto. }
  assert (F : Forall (visible_ref i) all).
  { rewrite Forall_forall. intros r Hr. apply A in Hr. tauto. }
  destruct (dedup_drefs_spec i all F) as (I & N). split; [|exact N]. intros r. rewrite I. apply A.
Qed.

Lemma visible_ref_def : forall i r, visible_ref i r -> In (dr_def r) (definitions ms).
Proof.
  intros i r (_ & m & Hm & H). apply in_flat_map. exists m. split; eapply nth_error_In; eassumption.
Qed.

Hypothesis Hu : NoDup (map def_name (definitions ms)).

Lemma definitions_unique : forall d d', In d (definitions ms) -> In d' (definitions ms) -> def_name d = def_name d' -> d = d'.
Proof. intros d d' H H' E. exact (NoDup_map_inj _ _ _ _ _ _ Hu H H' E). Qed.

(** Two references to definitions of one name are the same object. *)
Lemma unique_position : forall i r r', visible_ref i r -> visible_ref i r' ->
  def_name (dr_def r) = def_name (dr_def r') -> r = r'.
Proof.
  intros i [j k d] [j' k' d'] (_ & m & Hm & H) (_ & m' & Hm' & H') E. simpl in *.
  assert (X : j = j' /\ k = k').
  { unfold definitions in Hu. clear Hb i.
    revert Hu j j' Hm Hm'. induction ms as [|x l IH]; intros N [|j] [|j'] Hm Hm'; simpl in Hm, Hm'; try discriminate.
    - injection Hm as ->. injection Hm' as ->. split; [reflexivity|].
      simpl in N. rewrite map_app in N. apply NoDup_app_iff in N. destruct N as (N & _ & _).
      apply (NoDup_nth_error_map _ _ def_name (mod_defs m') k k' d d' N H H' E).
    - exfalso. injection Hm as ->. simpl in N. rewrite map_app in N. apply NoDup_app_iff in N. destruct N as (_ & _ & N).
      apply (N (def_name d)); [apply in_map; eapply nth_error_In; exact H|]. rewrite E. apply in_map. apply in_flat_map.
      exists m'. split; eapply nth_error_In; eassumption.
    - exfalso. injection Hm' as ->. simpl in N. rewrite map_app in N. apply NoDup_app_iff in N. destruct N as (_ & _ & N).
      apply (N (def_name d')); [apply in_map; eapply nth_error_In; exact H'|]. rewrite <- E. apply in_map. apply in_flat_map.
      exists m. split; eapply nth_error_In; eassumption.
    - simpl in N. rewrite map_app in N. apply NoDup_app_iff in N. destruct N as (_ & N & _).
      destruct (IH N j j' Hm Hm') as (-> & ->). auto. }
  destruct X as (-> & ->). assert (m' = m) by congruence. subst. congruence.
Qed.

Lemma get_definition_spec : forall fuel n i,
  match get_definition fuel b n i with
  | Ok r => visible_ref i r /\ def_name (dr_def r) = n
  | Err e => e = ConsistencyError /\ forall d, visible ms i d -> def_name d <> n
  | OutOfFuel => definitions_recurs fuel b n i = OutOfFuel
  end.
Proof.
  intros fuel n i. unfold get_definition. destruct (definitions_recurs fuel b n i) as [l|e|] eqn:E; cbn [bind]; [| |reflexivity].
  - destruct (definitions_recurs_spec _ _ _ _ E) as (A & N). destruct l as [|r [|r' l]].
    + split; [reflexivity|]. intros d V En. destruct (visible_visible_ref _ _ V) as (r & Vr & <-). apply (A r). auto.
    + apply A. left. reflexivity.
    + exfalso. assert (r = r').
      { apply (unique_position i); [apply A; simpl; auto..|]. transitivity n; [|symmetry]; apply A; simpl; auto. }
      subst. inversion N as [|? ? N1 _]; subst. apply N1. left. reflexivity.
  - exfalso. clear Hu. revert i e E. induction fuel as [|fuel IH]; intros i e E; [discriminate|]. cbn [definitions_recurs] in E.
    apply bind_err in E. destruct E as [E|(x & _ & E)]; [|discriminate].
    revert E. generalize (match nth_error (b_modules b) i with Some bm => bm_imported bm | None => [] end).
    induction l as [|j l IHl]; intros E; [discriminate|]. cbn [map_result] in E. apply bind_err in E.
    destruct E as [E|(x & _ & E)]; [exact (IH _ _ E)|]. apply bind_err in E. destruct E as [E|(y & _ & E)]; [exact (IHl E)|discriminate].
Qed.

Lemma recurs_total : forall fuel n i e, definitions_recurs fuel b n i <> Err e.
Proof.
  intros fuel n. induction fuel as [|fuel IH]; intros i e E; [discriminate|]. cbn [definitions_recurs] in E.
  apply bind_err in E. destruct E as [E|(x & _ & E)]; [|discriminate].
  revert E. generalize (match nth_error (b_modules b) i with Some bm => bm_imported bm | None => [] end).
  induction l as [|j l IHl]; intros E; [discriminate|]. cbn [map_result] in E. apply bind_err in E.
  destruct E as [E|(x & _ & E)]; [exact (IH _ _ E)|]. apply bind_err in E. destruct E as [E|(y & _ & E)]; [exact (IHl E)|discriminate].
Qed.

Lemma imports_range : forall i j, imports_module ms i j -> (i < length ms)%nat /\ (j < length ms)%nat.
Proof.
  intros i j (m & m' & it & (Hi & _) & (Hj & _) & _). split; apply nth_error_Some; congruence.
Qed.

Lemma reaches_end : forall i j k, reaches_module ms i j -> imports_module ms j k -> reaches_module ms i k.
Proof.
  intros i j k R I. induction R as [i|i j' j Hj R IH].
  - apply reach_import with k; [exact I|constructor].
  - apply reach_import with j'; [exact Hj|]. apply IH. exact I.
Qed.

Lemma map_result_fuel : forall A B (f : A -> result B) l, (forall x, In x l -> f x <> OutOfFuel) -> map_result f l <> OutOfFuel.
Proof.
  intros A B f. induction l as [|x l IH]; intros H; cbn [map_result]; [discriminate|].
  assert (Hx := H x (or_introl eq_refl)). destruct (f x) as [y|e|]; cbn [bind]; try discriminate; [|congruence].
  assert (Hl := IH (fun z Hz => H z (or_intror Hz))). destruct (map_result f l); cbn [bind]; congruence.
Qed.

Lemma recurs_ends_aux : forall i0, acyclic_from ms i0 -> forall n k visited i, reaches_module ms i0 i ->
  (i < length ms)%nat -> NoDup (i :: visited) -> incl visited (seq 0 (length ms)) ->
  (forall v, In v visited -> exists j, reaches_module ms i0 v /\ imports_module ms v j /\ reaches_module ms j i) ->
  (length ms <= k + length visited)%nat -> definitions_recurs k b n i <> OutOfFuel.
Proof.
  intros i0 AC n. induction k as [|k IH]; intros visited i H0 Hi N I R L.
  - exfalso. assert (X : (length (i :: visited) <= length (seq 0 (length ms)))%nat).
    { apply NoDup_incl_length; [exact N|]. intros x [<-|Hx]; [apply in_seq; lia|apply I; exact Hx]. }
    rewrite seq_length in X. simpl in X. lia.
  - cbn [definitions_recurs]. match goal with |- bind ?r _ <> _ => assert (X : r <> OutOfFuel); [|destruct r; cbn [bind]; congruence] end.
    apply map_result_fuel. intros j Hj. rewrite (build_nth _ _ i Hb) in Hj.
    destruct (nth_error ms i) as [m|] eqn:Em; simpl in Hj; [|destruct Hj].
    apply (imported_of_imports ms i m _ Em) in Hj. apply (IH (i :: visited)).
    + apply reaches_end with i; assumption.
    + exact (proj2 (imports_range _ _ Hj)).
    + constructor; [|exact N]. intros [<-|Hv]; [apply (AC _ _ H0 Hj); constructor|].
      destruct (R _ Hv) as (x & Rv & Ix & Rx). apply (AC _ _ Rv Ix). apply reaches_end with i; assumption.
    + intros x [<-|Hx]; [apply in_seq; lia|apply I; exact Hx].
    + intros v [<-|Hv]; [exists j; split; [exact H0|split; [exact Hj|constructor]]|]. destruct (R _ Hv) as (x & Rv & Ix & Rx).
      exists x. split; [exact Rv|]. split; [exact Ix|]. apply reaches_end with i; assumption.
    + simpl. lia.
Qed.

Lemma recurs_ends : forall i, acyclic_from ms i -> forall n fuel, (length ms < fuel)%nat -> definitions_recurs fuel b n i <> OutOfFuel.
Proof.
  intros i AC n fuel L. destruct (Nat.lt_ge_cases i (length ms)) as [Hi|Hi].
  - apply (recurs_ends_aux i AC n fuel [] i (reach_here _ _) Hi); [repeat constructor; auto|intros x []|intros x []|simpl; lia].
  - destruct fuel as [|fuel]; [lia|]. cbn [definitions_recurs]. rewrite (build_nth _ _ i Hb).
    rewrite (proj2 (nth_error_None ms i) Hi). discriminate.
Qed.

Lemma recurs_cyclic : forall n fuel i j, imports_module ms i j -> reaches_module ms j i ->
  definitions_recurs fuel b n i = OutOfFuel.
Proof.
  intros n. induction fuel as [|fuel IH]; intros i j I R; [reflexivity|]. cbn [definitions_recurs].
  match goal with |- bind ?r _ = _ => assert (X : r = OutOfFuel); [|rewrite X; reflexivity] end.
  assert (J : definitions_recurs fuel b n j = OutOfFuel).
  { destruct (reaches_inv _ _ _ R) as [<-|(k & K & R')]; [exact (IH _ _ I R)|]. apply (IH j k K). apply reaches_end with i; assumption. }
  rewrite (build_nth _ _ i Hb). assert (Ij := I). destruct Ij as (m & _ & _ & (Em & _) & _). rewrite Em. simpl.
  apply (imported_of_imports ms i m _ Em) in I. revert I. generalize (imported_of ms i m).
  induction l as [|x l IHl]; intros I; [destruct I|]. cbn [map_result].
  destruct (definitions_recurs fuel b n x) as [y|e|] eqn:E; cbn [bind]; [|destruct (recurs_total _ _ _ _ E)|reflexivity].
  destruct I as [->|I]; [congruence|]. rewrite (IHl I). reflexivity.
Qed.

Lemma recurs_cyclic_from : forall n i j k, reaches_module ms i j -> imports_module ms j k -> reaches_module ms k j ->
  forall fuel, definitions_recurs fuel b n i = OutOfFuel.
Proof.
  intros n i j k R. revert k. induction R as [j|i x j I R IH]; intros k I' R' fuel; [eapply recurs_cyclic; eassumption|].
  destruct fuel as [|fuel]; [reflexivity|]. cbn [definitions_recurs].
  match goal with |- bind ?r _ = _ => assert (X : r = OutOfFuel); [|rewrite X; reflexivity] end.
  assert (J := IH k I' R' fuel).
  rewrite (build_nth _ _ i Hb). assert (Ij := I). destruct Ij as (m & _ & _ & (Em & _) & _). rewrite Em. simpl.
  apply (imported_of_imports ms i m _ Em) in I. revert I. generalize (imported_of ms i m).
  induction l as [|y l IHl]; intros I; [destruct I|]. cbn [map_result].
  destruct (definitions_recurs fuel b n y) as [z|e|] eqn:E; cbn [bind]; [|destruct (recurs_total _ _ _ _ E)|reflexivity].
  destruct I as [->|I]; [congruence|]. rewrite (IHl I). reflexivity.
Qed.

Lemma get_definition_ends : forall i, acyclic_from ms i -> forall n fuel, (length ms < fuel)%nat -> get_definition fuel b n i <> OutOfFuel.
Proof.
  intros i AC n fuel L E. assert (X := get_definition_spec fuel n i). rewrite E in X. exact (recurs_ends i AC n fuel L X).
Qed.

Lemma get_definition_visible : forall i, acyclic_from ms i -> forall fuel d, (length ms < fuel)%nat -> visible ms i d ->
  exists r, get_definition fuel b (def_name d) i = Ok r /\ dr_def r = d /\ visible_ref i r.
Proof.
  intros i AC fuel d L V. assert (X := get_definition_spec fuel (def_name d) i). assert (Y := get_definition_ends i AC (def_name d) fuel L).
  destruct (get_definition fuel b (def_name d) i) as [r|e|]; [| |congruence].
  - destruct X as (Vr & E). exists r. split; [reflexivity|]. split; [|exact Vr].
    destruct (visible_visible_ref _ _ V) as (r' & Vr' & <-). rewrite (unique_position _ _ _ Vr Vr' E). reflexivity.
  - exfalso. destruct X as (_ & X). exact (X d V eq_refl).
Qed.

End Bundle.

(** ** Kinds and widths *)

Lemma element_cases : forall t, (exists r, element t = TReal r) \/ (exists r, element t = TInteger r) \/ element t = TNull
  \/ element t = TBoolean \/ (exists k n, element t = TString k n) \/ (exists n, element t = TName n).
Proof. induction t; simpl; eauto 10. Qed.

Lemma element_type_name : forall t, type_name t = type_name (element t).
Proof. induction t; simpl; auto. Qed.

Lemma element_self : forall t, (forall n u, t <> TArray n u) -> element t = t.
Proof. intros t H. destruct t; try reflexivity. destruct (H _ _ eq_refl). Qed.

Lemma type_ok_element : forall t, type_ok t = true -> type_ok (element t) = true.
Proof. induction t; simpl; auto. Qed.

Lemma array_c_type : forall n t, type_ok t = true ->
  get_c_type (TArray n t) = match element t with
                            | TBoolean => Some A_BOOL
                            | TName x => get_c_type (TName x)
                            | _ => None
                            end.
Proof.
  intros n t H. unfold get_c_type, asn1_type. cbn [type_begin type_end type_name bind]. rewrite (element_type_name t).
  apply type_ok_element in H. destruct (element_cases t) as [(r & E)|[(r & E)|[E|[E|[(k & x & E)|(x & E)]]]]]; rewrite E in *;
    cbn [type_name]; try (destruct k); try reflexivity.
Qed.

Lemma float_max_lt : (qval false 8999725064576941 75 < qval false 9007199254740991 971)%Q.
Proof.
  assert (A : (qval false 8999725064576941 75 <= qval false 9007199254740991 75)%Q).
  { unfold qval. apply Qmult_le_compat_r; [rewrite <- Zle_Qle; lia|]. apply Qpower_pos. discriminate. }
  eapply Qle_lt_trans; [exact A|]. unfold qval. apply Qmult_lt_l; [reflexivity|]. reflexivity.
Qed.

Lemma outside_float : forall b e, type_ok (TReal (Some (b, e))) = true ->
  abs_at_most (fval b) float_bound -> abs_at_most (fval e) float_bound ->
  ~ posix_ok "Double" (TReal (Some (b, e))).
Proof.
  intros b e _ A _ P. unfold posix_ok in P. cbn -[qval Qeq] in P. unfold abs_at_most, float_bound in A.
  destruct (fval b) as [s1 m1 e1|s1], (fval e) as [s2 m2 e2|s2]; try tauto. destruct P as [P _], A as [A _].
  rewrite P in A. assert (L := float_max_lt).
  assert (S : (qval true 9007199254740991 971 == - qval false 9007199254740991 971)%Q) by (unfold qval; ring).
  rewrite S in A. apply Qopp_le_compat in A. rewrite !Qopp_involutive in A. exact (Qlt_not_le _ _ L A).
Qed.

Lemma inside_float : forall b e, posix_ok "Float" (TReal (Some (b, e))) ->
  abs_at_most (fval b) float_bound /\ abs_at_most (fval e) float_bound.
Proof.
  intros b e P. unfold posix_ok in P. cbn -[qval Qeq] in P. unfold abs_at_most, float_bound.
  destruct (fval b) as [s1 m1 e1|s1], (fval e) as [s2 m2 e2|s2]; try tauto. destruct P as [P1 P2].
  assert (S : (qval true 8999725064576941 75 == - qval false 8999725064576941 75)%Q) by (unfold qval; ring).
  assert (N : (- qval false 8999725064576941 75 <= qval false 8999725064576941 75)%Q) by (vm_compute; discriminate).
  rewrite P1, P2, S. repeat split; try apply Qle_refl; exact N.
Qed.

Lemma limits_spec : forall t c r, type_ok t = true -> ranges_ok t -> get_c_type t = Some c ->
  subrange c (type_begin t) (type_end t) = Ok r -> limits t r.
Proof.
  intros t c r Hok Hr Hc Hs. destruct t as [[[b e]|]|[[b e]|]| | |k n|n t|n]; cbn [limits];
    try (unfold subrange in Hs; cbn [type_begin type_end] in Hs; destruct c; congruence).
  - assert (Fb : num_lt (NFloat e) (NFloat b) = false) by (apply num_lt_float; apply (Forall_inv Hr)).
    destruct (real_range_cases b e Hok) as [(D & E)|[(D & A & B & E)|[(D & F1 & F2 & N & E)|(D & N & E)]]];
      unfold get_c_type in Hc; rewrite E in Hc; try discriminate; injection Hc as <-;
      unfold subrange in Hs; cbn [type_begin type_end] in Hs; injection Hs as <-.
    + assert (S : (qval true 8999725064576941 75 == - qval false 8999725064576941 75)%Q) by (unfold qval; ring).
      assert (G : (num_lt (NFloat FLOAT_MIN) (NFloat b) || num_lt (NFloat e) (NFloat FLOAT_MAX) = false) <-> full_range (TReal (Some (b, e)))).
      { rewrite orb_false_iff, !num_lt_float. unfold full_range. split.
        - intros (G1 & G2). left. unfold posix_ok. cbn -[qval Qeq]. unfold abs_at_most, float_bound in A, B. unfold double_le, FLOAT_MIN, FLOAT_MAX in G1, G2. cbn [fval] in G1, G2.
          destruct (fval b) as [s1 m1 e1|s1], (fval e) as [s2 m2 e2|s2]; try tauto.
          split; apply Qle_antisym; try assumption; [rewrite S|]; tauto.
        - intros [P|P]; [|destruct (outside_float _ _ Hok A B P)]. unfold posix_ok in P. cbn -[qval Qeq] in P.
          unfold double_le, FLOAT_MIN, FLOAT_MAX. cbn [fval].
          destruct (fval b) as [s1 m1 e1|s1], (fval e) as [s2 m2 e2|s2]; try tauto. destruct P as [P1 P2]. rewrite P1, P2. split; apply Qle_refl. }
      destruct (_ || _).
      * split; [intros Fr; apply G in Fr; discriminate|reflexivity].
      * split; [reflexivity|]. intros NF. destruct (NF (proj1 G eq_refl)).
    + assert (B : num_le (NFloat DOUBLE_MIN) (NFloat b) = true /\ num_le (NFloat e) (NFloat DOUBLE_MAX) = true).
      { rewrite real_range_type in E by exact Hok. rewrite Fb in E. destruct (_ && _) in E; [discriminate|].
        destruct (num_le (NFloat DOUBLE_MIN) (NFloat b)), (num_le (NFloat e) (NFloat DOUBLE_MAX)); try discriminate. auto. }
      rewrite !num_le_float in B. destruct B as (B1 & B2).
      assert (G : (num_lt (NFloat DOUBLE_MIN) (NFloat b) || num_lt (NFloat e) (NFloat DOUBLE_MAX) = false) <-> full_range (TReal (Some (b, e)))).
      { rewrite orb_false_iff, !num_lt_float. unfold full_range. split.
        - intros (G1 & G2). right. unfold posix_ok. cbn -[qval Qeq]. unfold double_le, DOUBLE_MIN, DOUBLE_MAX in *. cbn [fval] in *.
          destruct (fval b) as [s1 m1 e1|s1], (fval e) as [s2 m2 e2|s2]; try tauto.
          split; apply Qle_antisym; assumption.
        - intros [P|P]; [destruct (N (inside_float _ _ P))|]. unfold posix_ok in P. cbn -[qval Qeq] in P.
          unfold double_le, DOUBLE_MIN, DOUBLE_MAX. cbn [fval].
          destruct (fval b) as [s1 m1 e1|s1], (fval e) as [s2 m2 e2|s2]; try tauto. destruct P as [P1 P2]. rewrite P1, P2. split; apply Qle_refl. }
      destruct (_ || _).
      * split; [intros Fr; apply G in Fr; discriminate|reflexivity].
      * split; [reflexivity|]. intros NF. destruct (NF (proj1 G eq_refl)).
  - assert (L : b <= e) by exact (Forall_inv Hr). rewrite get_c_type_integer in Hc by exact L.
    injection Hc as <-. destruct (0 <=? b); cbn in Hs; congruence.
Qed.

(** A type that is written out is shown iff it has a kind, a width and, for
    reals, bounds. *)
Lemma written_iff : forall t c w, type_ok t = true -> ranges_ok t -> element t <> TNull ->
  (written_item t c w <->
   get_c_type t = Some c /\ get_bit_size c (type_begin t) (type_end t) = Ok w
   /\ c <> A_STRING /\ exists r, subrange c (type_begin t) (type_end t) = Ok r).
Proof.
  intros t c w Hok Hr Hn.
  assert (NAME : forall n x, element x = TName n -> type_ok x = true -> ~ written_item x c w).
  { intros n x E _ W. inversion W; subst; simpl in E; congruence. }
  assert (NAME' : forall n x, element x = TName n -> is_name_capital n = true -> get_c_type x = Some c ->
    get_bit_size c (type_begin x) (type_end x) = Ok w -> (exists r, subrange c (type_begin x) (type_end x) = Ok r) -> False).
  { intros n x E Hc G1 G2 (r & G3). destruct (element_named _ _ E) as (E1 & E2 & _). rewrite E1, E2 in *.
    destruct (named_c_type _ _ E Hc) as [(s & _ & X)|[(_ & X)|[(_ & X)|(_ & _ & _ & X)]]]; rewrite X in G1; try discriminate;
      injection G1 as <-; [destruct s; discriminate|discriminate|discriminate]. }
  assert (CAP : forall n, element t = TName n -> is_name_capital n = true).
  { intros n E. apply type_ok_element in Hok. rewrite E in Hok. exact Hok. }
  destruct t as [[[b e]|]|[[b e]|]| | |k n|n t|n]; cbn [element] in *.
  - destruct (real_range_cases b e Hok) as [(D & E)|[(D & A & B & E)|[(D & F1 & F2 & N & E)|(D & N & E)]]].
    + exfalso. apply D. apply (Forall_inv Hr).
    + unfold get_c_type. rewrite E. split.
      * intros W. inversion W; subst; [discriminate| |tauto]. repeat split; try discriminate. eexists. reflexivity.
      * intros (Ec & Ew & _). injection Ec as <-. injection Ew as <-. constructor; assumption.
    + unfold get_c_type. rewrite E. split.
      * intros W. inversion W; subst; [discriminate|tauto|]. repeat split; try discriminate. eexists. reflexivity.
      * intros (Ec & Ew & _). injection Ec as <-. injection Ew as <-. constructor; assumption.
    + exfalso. apply N. assert (Y := Forall_inv Hr). simpl in Y. tauto.
  - split; [intros W; inversion W; discriminate|intros (X & _); discriminate].
  - assert (L : b <= e) by exact (Forall_inv Hr). rewrite get_c_type_integer by exact L.
    assert (VS := value_size_base (TInteger (Some (b, e))) w Hok Hr Hn). cbn [simple_size] in VS. unfold base_size in VS.
    rewrite get_c_type_integer in VS by exact L.
    destruct (Z.leb_spec 0 b) as [P|P].
    + split.
      * intros W. inversion W; subst; [discriminate| |lia]. split; [reflexivity|]. split; [|split; [discriminate|eexists; reflexivity]].
        apply VS. constructor; assumption.
      * intros (Ec & Ew & _). injection Ec as <-. apply VS in Ew. inversion Ew; subst; [|lia]. constructor; assumption.
    + split.
      * intros W. inversion W; subst; [discriminate|lia|]. split; [reflexivity|]. split; [|split; [discriminate|eexists; reflexivity]].
        apply VS. constructor; assumption.
      * intros (Ec & Ew & _). injection Ec as <-. apply VS in Ew. inversion Ew; subst; [lia|]. constructor; assumption.
  - split; [intros W; inversion W; discriminate|intros (X & _); discriminate].
  - congruence.
  - split.
    + intros W. inversion W; subst. repeat split; try discriminate. eexists. reflexivity.
    + intros (Ec & Ew & _). injection Ec as <-. injection Ew as <-. constructor. reflexivity.
  - split; [intros W; inversion W; discriminate|]. intros (X & _ & Y & _). exfalso. apply Y. destruct k; injection X as <-; reflexivity.
  - rewrite array_c_type by exact Hok.
    destruct (element_cases t) as [(r & E)|[(r & E)|[E|[E|[(k & x & E)|(x & E)]]]]]; rewrite E in *;
      try (split; [intros W; inversion W; subst; simpl in *; congruence|intros (X & _); discriminate]).
    + split.
      * intros W. inversion W; subst. repeat split; try discriminate. eexists. reflexivity.
      * intros (Ec & Ew & _). injection Ec as <-. injection Ew as <-. constructor. exact E.
    + split; [intros W; destruct (NAME x (TArray n t) E Hok W)|].
      intros (Ec & Ew & _ & Er). destruct (NAME' x (TName x) eq_refl (CAP _ eq_refl) Ec Ew Er).
  - split; [intros W; destruct (NAME n (TName n) eq_refl Hok W)|].
    intros (Ec & Ew & _ & Er). destruct (NAME' n (TName n) eq_refl (CAP _ eq_refl) Ec Ew Er).
Qed.

(** ** Items of a message *)

Fixpoint go_members (f : dref -> list witem -> cstate -> result (list entry * cstate)) (fuel : nat) (b : bundle)
         (root mi di : nat) (wc : list witem) (k : nat) (l : list member) (st : cstate) : result (list entry * cstate) :=
  match l with
  | [] => Ok ([], st)
  | m :: r =>
      let given := given_value wc (m_key m) in
      let '(down, st) := hand_down st mi di k m given in
      let* info := member_info fuel b root (m_type m) in
      let* x :=
        match info with
        | Nested d' => f d' down st
        | Leaf states c bg en =>
            let* e := leaf_entry m given states c bg en in
            Ok ([e], st)
        end in
      let '(es, st) := x in
      let* y := go_members f fuel b root mi di wc (S k) r st in
      let '(rest, st) := y in
      Ok (es ++ rest, st)%list
  end.

Lemma items_of_sequence : forall fuel b root d wc st n c l, dr_def d = DSequence n c l ->
  items_of (S fuel) b root d wc st =
  go_members (items_of fuel b root) fuel b root (dr_mod d) (dr_pos d) wc 0 l st.
Proof.
  intros fuel b root d wc st n c l E. cbn [items_of]. rewrite E. clear E. generalize 0%nat as k. revert st.
  induction l as [|m r IH]; intros st k; [reflexivity|]. cbn [go_members].
  destruct (hand_down st (dr_mod d) (dr_pos d) k m (given_value wc (m_key m))) as [down st'].
  destruct (member_info fuel b root (m_type m)) as [info|e|]; cbn [bind]; try reflexivity.
  match goal with |- bind ?x _ = bind ?x _ => destruct x as [[es st'']|e|]; cbn [bind]; try reflexivity end.
  rewrite IH. reflexivity.
Qed.

Section Accepted.
Variables (input : list module) (bun : bundle).
Hypothesis Hg : Forall (fun m => grammatical m = true) input.
Hypothesis Ha : accepted input bun.
Let ms := all_modules bun.

Lemma acc_build : build ms = Ok bun.
Proof. destruct (accepted_inv _ _ Ha) as (ms' & _ & H & E & _). unfold ms. rewrite E. exact H. Qed.

Lemma acc_unique : NoDup (map def_name (definitions ms)).
Proof. exact (proj2 (proj2 (accepted_same _ _ Ha))). Qed.

Lemma visible_defs : forall i d, visible ms i d -> In d (all_defs bun).
Proof. intros i d (j & m & _ & Hm & Hd). apply in_flat_map. exists m. split; [eapply nth_error_In; exact Hm|exact Hd]. Qed.

Lemma visible_unique : forall i d d', visible ms i d -> visible ms i d' -> def_name d = def_name d' -> d = d'.
Proof. intros i d d' V V' E. exact (NoDup_map_inj _ _ _ _ _ _ acc_unique (visible_defs _ _ V) (visible_defs _ _ V') E). Qed.

Lemma enum_nonempty : forall n c l, In (DEnumerated n c l) (all_defs bun) -> (0 < length l)%nat.
Proof.
  intros n c l H. destruct (accepted_same _ _ Ha) as (_ & Hs & _).
  destruct (Forall2_in_r _ _ _ _ _ _ Hs H) as (d & Hd & E). destruct d as [n0 c0 l0|n0 c0 l0|n0 c0 l0|n0 t0 c0]; simpl in E; try discriminate.
  destruct E as (l' & E & N & _). injection E as -> -> ->.
  assert (L : length l' = length l0) by (rewrite <- (map_length number l'), N; unfold upto; rewrite map_length, seq_length; reflexivity).
  rewrite L. destruct l0; [|simpl; lia]. exfalso.
  apply in_flat_map in Hd. destruct Hd as (m & Hm & Hd). rewrite Forall_forall in Hg.
  assert (G := grammatical_defs m _ (Hg m Hm) Hd). unfold definition_ok in G.
  repeat (apply andb_prop in G; destruct G as [G ?]). discriminate.
Qed.

Lemma members_nonempty : forall d, In d (all_defs bun) -> is_sequence d = true -> members_of d <> [].
Proof.
  intros d H Hq. destruct (accepted_same _ _ Ha) as (_ & Hs & _).
  destruct (Forall2_in_r _ _ _ _ _ _ Hs H) as (d0 & Hd & E). rewrite (same_definition_members _ _ E).
  destruct d0 as [n0 c0 l0|n0 c0 l0|n0 c0 l0|n0 t0 c0]; simpl in E; try (subst d; discriminate); [|destruct E as (? & -> & _); discriminate].
  apply in_flat_map in Hd. destruct Hd as (m & Hm & Hd). rewrite Forall_forall in Hg.
  assert (G := grammatical_defs m _ (Hg m Hm) Hd). unfold definition_ok in G.
  repeat (apply andb_prop in G; destruct G as [G ?]). destruct l0; [discriminate|]. discriminate.
Qed.

(** What [shows_value] says, in terms of the value handed to the leaf. *)
Definition value_given (m : member) (w : Z) (given : option wval) (e : entry) : Prop :=
  match m_type m with
  | TArray n _ => te_value e = str_of_Z (n * w)
  | _ => if String.eqb (m_key m) COSMOS_KEY_APID then apid_value given = Ok (te_value e)
         else te_value e = match given with Some v => str_value v | None => "" end%string
  end.

Lemma leaf_entry_inv : forall m given states c bg en e, leaf_entry m given states c bg en = Ok e ->
  exists c' w r, c = Some c' /\ get_bit_size c' bg en = Ok w /\ subrange c' bg en = Ok r
    /\ value_given m w given e
    /\ forall u p, limits u r -> shows (mkleaf p m u c' w states) e.
Proof.
  intros m given states c bg en e H. unfold leaf_entry in H. destruct c as [c|]; [|discriminate].
  apply bind_ok in H. destruct H as (w & Hw & H). apply bind_ok in H. destruct H as (r & Hr & H).
  apply bind_ok in H. destruct H as (v & Hv & H). injection H as <-. exists c, w, r.
  split; [reflexivity|]. split; [exact Hw|]. split; [exact Hr|]. split.
  - unfold value_given. cbn [te_value]. destruct (m_type m); try (injection Hv as <-; reflexivity);
      destruct (String.eqb (m_key m) COSMOS_KEY_APID); try exact Hv; injection Hv as <-; reflexivity.
  - intros u p L. split; cbn; try reflexivity; [|exact L]. destruct (m_type m); reflexivity.
Qed.

Lemma leaf_entry_ok : forall m given states c w bg en r, get_bit_size c bg en = Ok w -> subrange c bg en = Ok r ->
  apid_ok m -> exists e, leaf_entry m given states (Some c) bg en = Ok e.
Proof.
  intros m given states c w bg en r Hw Hr A. unfold leaf_entry. rewrite Hw, Hr. cbn [bind].
  destruct A as [A|A].
  - destruct (m_type m); try discriminate. eexists. reflexivity.
  - change (m_key m <> COSMOS_KEY_APID) in A. apply String.eqb_neq in A. rewrite A. destruct (m_type m); eexists; reflexivity.
Qed.

(** The type of a member and what is found out about it. *)
Lemma member_info_leaf : forall d m fuel i states c bg en, In d (all_defs bun) -> In m (members_of d) ->
  member_info fuel bun i (m_type m) = Ok (Leaf states c bg en) ->
  forall c' w r, c = Some c' -> get_bit_size c' bg en = Ok w -> subrange c' bg en = Ok r ->
  exists u, item_type ms i (m_type m) u c' w states /\ limits u r.
Proof.
  intros d m fuel i states c bg en Hd Hm H c' w r -> Hw Hr.
  destruct (accepted_member _ _ _ _ Hg Ha Hd Hm) as (_ & Hok & Hra & Hn).
  set (t := m_type m) in *. clearbody t. unfold member_info in H.
  destruct (element_cases t) as [(x & E)|[(x & E)|[E|[E|[(k & x & E)|(x & E)]]]]].
  - rewrite (element_type_name t), E in H. cbn in H. injection H as <- Hc <- <-.
    destruct t as [y|y| | |k y|y t'|y]; try discriminate.
    + exists (TReal y). split.
      * apply item_number; [reflexivity|discriminate|]. apply written_iff; try assumption. repeat split; eauto.
        destruct y as [[b e]|]; [|discriminate]. intros ->. unfold get_c_type in Hc. destruct (real_range_cases b e Hok) as [(_ & X)|[(_ & _ & _ & X)|[(_ & _ & _ & _ & X)|(_ & _ & X)]]]; rewrite X in Hc; discriminate.
      * apply (limits_spec _ c'); assumption.
    + exfalso. rewrite array_c_type in Hc by exact Hok. cbn [element] in E. rewrite E in Hc. discriminate.
  - rewrite (element_type_name t), E in H. cbn in H. injection H as <- Hc <- <-.
    destruct t as [y|y| | |k y|y t'|y]; try discriminate.
    + exists (TInteger y). split.
      * apply item_number; [reflexivity|discriminate|]. apply written_iff; try assumption. repeat split; eauto.
        destruct y as [[b e]|]; [|discriminate]. intros ->. rewrite get_c_type_integer in Hc by exact (Forall_inv Hra). destruct (0 <=? b); discriminate.
      * apply (limits_spec _ c'); assumption.
    + exfalso. rewrite array_c_type in Hc by exact Hok. cbn [element] in E. rewrite E in Hc. discriminate.
  - congruence.
  - rewrite (element_type_name t), E in H. cbn in H. injection H as <- Hc <- <-.
    assert (c' = A_BOOL).
    { destruct t as [y|y| | |k y|y t'|y]; try discriminate; [cbn in Hc; congruence|].
      rewrite array_c_type in Hc by exact Hok. cbn [element] in E. rewrite E in Hc. congruence. }
    subst c'. cbn in Hw, Hr. injection Hw as <-. injection Hr as <-. exists TBoolean. split; [apply item_boolean; exact E|reflexivity].
  - rewrite (element_type_name t), E in H. destruct t as [y|y| | |k' y|y t'|y]; cbn [element] in E; try discriminate.
    + injection E as -> ->. assert (X : Leaf [] (get_c_type (TString k x)) (type_begin (TString k x)) (Some (NInt x)) = Leaf states (Some c') bg en).
      { destruct k; injection H as <- <- <- <-; reflexivity. }
      injection X as <- Hc <- <-. assert (c' = A_STRING) by (destruct k; cbn in Hc; congruence). subst c'.
      cbn in Hw, Hr. injection Hw as <-. injection Hr as <-. exists (TString k x). split; [apply item_string|reflexivity].
    + exfalso. assert (G : exists y, get_definition fuel bun (string_kind_name k) i = Ok y).
      { destruct k; cbn -[get_definition] in H; apply bind_ok in H; destruct H as (y' & H & _); eauto. }
      destruct G as (r' & G). assert (X := get_definition_spec ms bun acc_build acc_unique fuel (string_kind_name k) i). rewrite G in X.
      destruct X as (V & En). assert (C := accepted_capital _ _ (dr_def r') Hg Ha).
      assert (D : In (dr_def r') (all_defs bun)) by (apply (visible_defs i); apply visible_ref_visible; exact V).
      apply C in D. rewrite En in D. destruct k; discriminate.
  - assert (N : mem x ["INTEGER"; "REAL"]%string = false /\ String.eqb x "BOOLEAN" = false).
    { assert (Hc := type_ok_element _ Hok). rewrite E in Hc. assert (K := capital_not_keyword x Hc). split; [apply mem_not_In; intros [<-|[<-|[]]]; apply K; simpl; tauto|].
      apply String.eqb_neq. intros ->. apply K. simpl. tauto. }
    destruct N as (N1 & N2). rewrite (element_type_name t), E in H. cbn [type_name] in H. rewrite N1, N2 in H.
    assert (X : (let* d := get_definition fuel bun x i in
      match dr_def d with
      | DSimple _ t' _ => Ok (Leaf [] (get_c_type t') (type_begin t') (type_end t'))
      | DEnumerated _ _ l => Ok (Leaf (map e_key l) (Some A_UINT) (Some (NInt 0)) (Some (NInt (Z.of_nat (List.length l) - 1))))
      | _ => Ok (Nested d)
      end) = Ok (Leaf states (Some c') bg en)).
    { destruct t; try discriminate; exact H. }
    clear H. apply bind_ok in X. destruct X as (r' & G & X).
    assert (Y := get_definition_spec ms bun acc_build acc_unique fuel x i). rewrite G in Y. destruct Y as (V & En).
    apply visible_ref_visible in V. destruct (dr_def r') as [n0 c0 l0|n0 c0 l0|n0 c0 l0|n0 t0 c0] eqn:Ed; try discriminate; simpl in En; subst n0.
    + injection X as <- <- <- <-. assert (L := enum_nonempty _ _ _ (visible_defs _ _ V)).
      injection Hw as <-. injection Hr as <-. exists (TInteger (Some (0, Z.of_nat (length l0) - 1))). split; [|reflexivity].
      eapply item_enum; [exact E|exact V|]. apply bit_length_least. lia.
    + injection X as <- Hc <- <-. destruct (accepted_simple _ _ _ _ _ Hg Ha (visible_defs _ _ V)) as (Hok0 & Hr0 & Hn0 & _).
      exists t0. split; [|apply (limits_spec _ c'); assumption].
      eapply item_simple; [exact E|exact V|]. apply written_iff; try assumption. repeat split; eauto. intros ->.
      destruct t0; cbn in Hw; try discriminate; destruct range as [[]|]; try discriminate.
      rewrite get_c_type_integer in Hc by exact (Forall_inv Hr0). destruct (0 <=? z); discriminate.
Qed.

(** The members of a named type are looked up. *)
Lemma member_info_named : forall fuel i t n, element t = TName n -> is_name_capital n = true ->
  member_info fuel bun i t =
  let* d := get_definition fuel bun n i in
  match dr_def d with
  | DSimple _ t' _ => Ok (Leaf [] (get_c_type t') (type_begin t') (type_end t'))
  | DEnumerated _ _ l => Ok (Leaf (map e_key l) (Some A_UINT) (Some (NInt 0)) (Some (NInt (Z.of_nat (List.length l) - 1))))
  | _ => Ok (Nested d)
  end.
Proof.
  intros fuel i t x E Hc. assert (K := capital_not_keyword x Hc).
  assert (N1 : mem x ["INTEGER"; "REAL"]%string = false) by (apply mem_not_In; intros [<-|[<-|[]]]; apply K; simpl; tauto).
  assert (N2 : String.eqb x "BOOLEAN" = false) by (apply String.eqb_neq; intros ->; apply K; simpl; tauto).
  unfold member_info. rewrite (element_type_name t), E. cbn [type_name]. rewrite N1, N2. destruct t; try reflexivity. discriminate.
Qed.

Lemma member_info_nested : forall d m fuel i r, In d (all_defs bun) -> In m (members_of d) ->
  member_info fuel bun i (m_type m) = Ok (Nested r) ->
  element (m_type m) = TName (def_name (dr_def r)) /\ visible_ref ms i r.
Proof.
  intros d m fuel i r Hd Hm H. destruct (accepted_member _ _ _ _ Hg Ha Hd Hm) as (_ & Hok & Hra & Hn).
  set (t := m_type m) in *. clearbody t.
  destruct (element_cases t) as [(x & E)|[(x & E)|[E|[E|[(k & x & E)|(x & E)]]]]].
  - exfalso. unfold member_info in H. rewrite (element_type_name t), E in H. discriminate.
  - exfalso. unfold member_info in H. rewrite (element_type_name t), E in H. discriminate.
  - congruence.
  - exfalso. unfold member_info in H. rewrite (element_type_name t), E in H. discriminate.
  - exfalso. unfold member_info in H. rewrite (element_type_name t), E in H.
    destruct t as [y|y| | |k' y|y t'|y]; cbn [element] in E; try discriminate; [destruct k; discriminate|].
    assert (G : exists y, get_definition fuel bun (string_kind_name k) i = Ok y).
    { destruct k; cbn -[get_definition] in H; apply bind_ok in H; destruct H as (y' & H & _); eauto. }
    destruct G as (r' & G). assert (X := get_definition_spec ms bun acc_build acc_unique fuel (string_kind_name k) i). rewrite G in X.
    destruct X as (V & En). assert (C := accepted_capital _ _ (dr_def r') Hg Ha).
    assert (D : In (dr_def r') (all_defs bun)) by (apply (visible_defs i); apply visible_ref_visible; exact V).
    apply C in D. rewrite En in D. destruct k; discriminate.
  - assert (Hc := type_ok_element _ Hok). rewrite E in Hc. rewrite (member_info_named _ _ _ _ E Hc) in H.
    apply bind_ok in H. destruct H as (r' & G & X).
    assert (Y := get_definition_spec ms bun acc_build acc_unique fuel x i). rewrite G in Y. destruct Y as (V & En).
    assert (r' = r) by (destruct (dr_def r'); congruence). subst r'. rewrite E, En. auto.
Qed.

(** Conversely, if no cycle of imports gets in the way. *)
Lemma item_type_info : forall i t, (forall n, element t = TName n -> acyclic_from ms i) -> forall fuel u c w states, (length ms < fuel)%nat ->
  type_ok t = true -> ranges_ok t -> element t <> TNull -> item_type ms i t u c w states ->
  exists bg en r, member_info fuel bun i t = Ok (Leaf states (Some c) bg en)
    /\ get_bit_size c bg en = Ok w /\ subrange c bg en = Ok r.
Proof.
  intros i t AC fuel u c w states L Hok Hr Hn I.
  assert (CAP : forall n, element t = TName n -> is_name_capital n = true).
  { intros n E. assert (Hc := type_ok_element _ Hok). rewrite E in Hc. exact Hc. }
  destruct I as [t c w Et Nb W|t E|k n|t n u cm c w E V W|t n cm l w E V W].
  - apply written_iff in W; try assumption. destruct W as (Ec & Ew & _ & r & Er).
    exists (type_begin t), (type_end t), r. split; [|auto].
    destruct t as [y|y| | |k y|y t'|y]; try congruence; try (unfold member_info; cbn; rewrite <- Ec; reflexivity).
    + exfalso. destruct k; cbn in Ec; injection Ec as <-; discriminate.
    + exfalso. clear - Et. cbn [element] in Et. destruct (element_cases t') as [(x & E)|[(x & E)|[E|[E|[(k & x & E)|(x & E)]]]]]; congruence.
    + exfalso. destruct (named_c_type (TName y) y eq_refl (CAP _ eq_refl)) as [(s & _ & X)|[(_ & X)|[(_ & X)|(_ & _ & _ & X)]]]; rewrite X in Ec; try discriminate;
        injection Ec as <-; [destruct s; discriminate|discriminate|discriminate].
  - exists (type_begin t), (type_end t), None. split; [|split; reflexivity].
    unfold member_info. rewrite (element_type_name t), E. cbn -[get_c_type].
    assert (X : get_c_type t = Some A_BOOL).
    { destruct t as [y|y| | |k y|y t'|y]; try discriminate; [reflexivity|]. rewrite array_c_type by exact Hok. cbn [element] in E. rewrite E. reflexivity. }
    rewrite X. reflexivity.
  - exists None, (Some (NInt n)), None. split; [|split; reflexivity]. destruct k; reflexivity.
  - rewrite (member_info_named _ _ _ _ E (CAP _ E)).
    destruct (get_definition_visible ms bun acc_build acc_unique i (AC _ E) fuel _ L V) as (r & G & Ed & _). cbn [def_name] in G. rewrite G. cbn [bind]. rewrite Ed.
    destruct (accepted_simple _ _ _ _ _ Hg Ha (visible_defs _ _ V)) as (Hok0 & Hr0 & Hn0 & _).
    apply written_iff in W; try assumption. destruct W as (Ec & Ew & _ & x & Er). rewrite Ec. eauto 10.
  - rewrite (member_info_named _ _ _ _ E (CAP _ E)).
    destruct (get_definition_visible ms bun acc_build acc_unique i (AC _ E) fuel _ L V) as (r & G & Ed & _). cbn [def_name] in G. rewrite G. cbn [bind]. rewrite Ed.
    exists (Some (NInt 0)), (Some (NInt (Z.of_nat (length l) - 1))), None. split; [reflexivity|]. split; [|reflexivity].
    cbn [get_bit_size]. f_equal. assert (N := enum_nonempty _ _ _ (visible_defs _ _ V)).
    destruct (bit_length_least (Z.of_nat (length l) - 1) ltac:(lia)) as (A1 & A2 & A3). destruct W as (B1 & B2 & B3).
    apply Z.le_antisymm; auto.
Qed.

(** ** Clauses *)

Lemma clauses_snoc : forall p m, clauses_at (p ++ [m]) = (own_clause m ++ flat_map (narrow (m_key m)) (clauses_at p))%list.
Proof. intros p m. unfold clauses_at. rewrite fold_left_app. reflexivity. Qed.

(** The components handed down are those of the only clause. *)
Definition handed (p : list member) (wc : list witem) : Prop :=
  (clauses_at p = [] /\ wc = []) \/ clauses_at p = [wc].

Lemma given_values : forall wc k, NoDup (map wi_key wc) ->
  given_value wc k = hd_error (values_for k wc) /\ (length (values_for k wc) <= 1)%nat
  /\ narrow k wc = match given_value wc k with Some (VWith w) => [wc_items w] | _ => [] end.
Proof.
  intros wc k N. unfold given_value, values_for.
  assert (X : (length (filter (fun c => String.eqb (wi_key c) k) wc) <= 1)%nat
    /\ narrow k wc = match filter (fun c => String.eqb (wi_key c) k) wc with [c] => match wi_value c with VWith w => [wc_items w] | _ => [] end | _ => [] end).
  { induction wc as [|[k' v c] wc IH]; [simpl; auto|]. cbn [map wi_key] in N. inversion N as [|? ? N1 N2]; subst. destruct (IH N2) as (I1 & I2).
    cbn [filter wi_key narrow flat_map]. fold (narrow k wc). destruct (String.eqb_spec k' k) as [->|Nk].
    - assert (Z : filter (fun c => String.eqb (wi_key c) k) wc = []).
      { apply filter_false_nil. intros x Hx. apply String.eqb_neq. intros Ex. apply N1. rewrite <- Ex. apply in_map. exact Hx. }
      rewrite I2, Z. split; [simpl; lia|]. cbn [wi_value]. destruct v; try reflexivity.
    - split; [exact I1|]. rewrite I2. destruct v; reflexivity. }
  destruct X as (X1 & X2). rewrite X2. destruct (filter _ wc) as [|c [|c' l]]; simpl in *; [split; [reflexivity|split; [lia|reflexivity]]|split; [reflexivity|split; [lia|reflexivity]]|lia].
Qed.

Lemma handed_nil : handed [] [].
Proof. left. auto. Qed.

Lemma given_fixed : forall p wc lf, handed p wc -> lf_path lf = p -> one_clause lf ->
  fixed_values lf = match given_value wc (m_key (lf_member lf)) with Some v => [v] | None => [] end.
Proof.
  intros p wc lf H Ep (O & _). unfold fixed_values. rewrite Ep. specialize (O p [] ltac:(rewrite Ep, app_nil_r; reflexivity)).
  destruct O as (_ & O). destruct H as [(H & ->)|H]; rewrite H in *; [reflexivity|]. cbn [flat_map]. rewrite app_nil_r.
  destruct (given_values wc (m_key (lf_member lf)) (Forall_inv O)) as (G & L & _). rewrite G.
  destruct (values_for _ wc) as [|v [|v' l]]; simpl in *; [reflexivity|reflexivity|lia].
Qed.

Lemma hand_down_nested : forall p wc mi di k m down st', handed p wc ->
  Forall (fun l => NoDup (map wi_key l)) (clauses_at p) -> (length (clauses_at (p ++ [m])) <= 1)%nat ->
  hand_down [] mi di k m (given_value wc (m_key m)) = (down, st') ->
  st' = [] /\ handed (p ++ [m]) down.
Proof.
  intros p wc mi di k m down st' H N L E. unfold handed. rewrite clauses_snoc in *. unfold hand_down, own_components, own_clause in *.
  cbn [state_get] in E.
  assert (X : flat_map (narrow (m_key m)) (clauses_at p) =
    match (match given_value wc (m_key m) with Some (VWith w) => Some (wc_items w) | _ => None end) with Some i => [i] | None => [] end).
  { destruct H as [(H & ->)|H]; rewrite H in *; [reflexivity|]. cbn [flat_map]. rewrite app_nil_r.
    destruct (given_values wc (m_key m) (Forall_inv N)) as (_ & _ & G). rewrite G. destruct (given_value wc (m_key m)) as [[]|]; reflexivity. }
  rewrite X in *. destruct (m_with m) as [w|]; destruct (match given_value wc (m_key m) with Some (VWith w) => Some (wc_items w) | _ => None end) as [x|];
    simpl in *; injection E as <- <-; auto. lia.
Qed.

Lemma hand_down_leaf : forall mi di k m given, (forall w, given <> Some (VWith w)) ->
  snd (hand_down [] mi di k m given) = [].
Proof.
  intros mi di k m given H. unfold hand_down. destruct (own_components [] mi di k m); destruct given as [[]|]; try reflexivity; destruct (H w eq_refl).
Qed.

Lemma leaves_nonempty : forall i p l ls, packet_leaves ms i p l ls -> l <> [] -> ls <> [].
Proof.
  intros i p l ls P. induction P as [p|p m r u c w s ls I P IH|p m n cm l r ls ls' E V P1 IH1 P2 IH2]; intros N; [congruence|discriminate|].
  assert (M := members_nonempty _ (visible_defs _ _ V) eq_refl). simpl in M. specialize (IH1 M). destruct ls; [congruence|discriminate].
Qed.

Lemma leaves_path : forall i p l ls, packet_leaves ms i p l ls -> Forall (fun lf => exists q, lf_path lf = (p ++ q)%list) ls.
Proof.
  intros i p l ls P. induction P as [p|p m r u c w s ls I P IH|p m n cm l r ls ls' E V P1 IH1 P2 IH2]; [constructor| |].
  - constructor; [exists []; rewrite app_nil_r; reflexivity|exact IH].
  - apply Forall_app. split; [|exact IH2]. eapply Forall_impl; [|exact IH1]. intros lf (q & E'). exists (m :: q). rewrite E', <- app_assoc. reflexivity.
Qed.

Lemma value_given_shows : forall p wc lf e, handed p wc -> lf_path lf = p -> one_clause lf ->
  value_given (lf_member lf) (lf_bits lf) (given_value wc (m_key (lf_member lf))) e -> shows_value lf e.
Proof.
  intros p wc lf e H Ep O V. assert (F := given_fixed p wc lf H Ep O). destruct O as (_ & O).
  unfold value_given in V. unfold shows_value. rewrite F in *. change COSMOS_KEY_APID with "application-process-identifier"%string in V.
  destruct (m_type (lf_member lf)); try exact V; destruct (String.eqb (m_key (lf_member lf)) "application-process-identifier");
    try (destruct (given_value wc (m_key (lf_member lf))) as [[z|f|[]|w]|]; cbn in V; try discriminate; injection V as V; eexists; eexists;
         (split; [reflexivity|]); (split; [reflexivity|]); (split; [discriminate|]); symmetry; exact V);
    destruct (given_value wc (m_key (lf_member lf))) as [[z|f|[]|w]|]; try exact V; exfalso; apply (O w); left; reflexivity.
Qed.

(** ** Soundness *)

Definition sound_items (fuel : nat) (i : nat) : Prop :=
  forall d wc st es st', visible_ref ms i d -> items_of fuel bun i d wc st = Ok (es, st') ->
  exists n c l, dr_def d = DSequence n c l /\ forall p, exists ls, packet_leaves ms i p l ls /\ Forall2 shows ls es
    /\ (Forall one_clause ls -> st = [] -> handed p wc -> st' = [] /\ Forall2 shows_value ls es).

Lemma go_sound : forall fuel i, sound_items fuel i ->
  forall d, In d (all_defs bun) -> forall mi di wc l k st es st', (forall m, In m l -> In m (members_of d)) ->
  go_members (items_of fuel bun i) fuel bun i mi di wc k l st = Ok (es, st') ->
  forall p, exists ls, packet_leaves ms i p l ls /\ Forall2 shows ls es
    /\ (Forall one_clause ls -> st = [] -> handed p wc -> st' = [] /\ Forall2 shows_value ls es).
Proof.
  intros fuel i IH d Hd mi di wc. induction l as [|m r IHl]; intros k st es st' Hl H p.
  - injection H as <- <-. exists []. split; [constructor|]. split; [constructor|]. intros _ E _. split; [exact E|constructor].
  - cbn [go_members] in H. destruct (hand_down st mi di k m (given_value wc (m_key m))) as [down st1] eqn:HD.
    apply bind_ok in H. destruct H as (info & Hi & H). apply bind_ok in H. destruct H as ((es1 & st2) & H1 & H).
    apply bind_ok in H. destruct H as ((es2 & st3) & H2 & H). injection H as <- <-.
    assert (Hm : In m (members_of d)) by (apply Hl; left; reflexivity).
    destruct (IHl _ _ _ _ (fun x Hx => Hl x (or_intror Hx)) H2 p) as (ls2 & P2 & S2 & V2). clear IHl H2.
    destruct info as [r'|states c bg en].
    + destruct (member_info_nested _ _ _ _ _ Hd Hm Hi) as (Ee & Vr). destruct (IH _ _ _ _ _ Vr H1) as (n & cm & l' & Ed & Hp).
      destruct (Hp (p ++ [m])%list) as (ls1 & P1 & S1 & V1). exists (ls1 ++ ls2)%list.
      assert (VS := visible_ref_visible _ _ _ Vr). rewrite Ed in VS, Ee. cbn [def_name] in Ee.
      split; [eapply pl_nested; eassumption|]. split; [apply Forall2_app; assumption|].
      intros O Est Hh. apply Forall_app in O. destruct O as (O1 & O2). subst st.
      assert (Hne : ls1 <> []) by (eapply leaves_nonempty; [exact P1|]; exact (members_nonempty _ (visible_defs _ _ VS) eq_refl)).
      assert (X : Forall (fun l => NoDup (map wi_key l)) (clauses_at p) /\ (length (clauses_at (p ++ [m])) <= 1)%nat).
      { assert (Pa := leaves_path _ _ _ _ P1). destruct ls1 as [|lf ls1]; [congruence|]. inversion Pa as [|? ? (q & Eq) _]; subst.
        inversion O1 as [|? ? (Of & _) _]; subst. split.
        - destruct (Of p ([m] ++ q)%list) as (_ & X); [rewrite Eq, <- app_assoc; reflexivity|exact X].
        - destruct (Of (p ++ [m])%list q Eq) as (X & _). exact X. }
      destruct (hand_down_nested _ _ _ _ _ _ _ _ Hh (proj1 X) (proj2 X) HD) as (-> & Hh').
      destruct (V1 O1 eq_refl Hh') as (-> & W1). destruct (V2 O2 eq_refl Hh) as (-> & W2). split; [reflexivity|]. apply Forall2_app; assumption.
    + apply bind_ok in H1. destruct H1 as (e & He & H1). injection H1 as <- <-.
      destruct (leaf_entry_inv _ _ _ _ _ _ _ He) as (c' & w & x & Ec & Ew & Er & Vg & Sh).
      destruct (member_info_leaf _ _ _ _ _ _ _ _ Hd Hm Hi _ _ _ Ec Ew Er) as (u & It & Li).
      exists (mkleaf p m u c' w states :: ls2). split; [apply pl_leaf; assumption|]. split; [constructor; [apply Sh; exact Li|exact S2]|].
      intros O Est Hh. subst st. inversion O as [|? ? O1 O2]; subst.
      assert (F := given_fixed p wc (mkleaf p m u c' w states) Hh eq_refl O1). cbn [lf_member] in F.
      assert (NW : forall w', given_value wc (m_key m) <> Some (VWith w')).
      { intros w' E. destruct O1 as (_ & O1). apply (O1 w'). rewrite F, E. left. reflexivity. }
      assert (st1 = []) by (assert (X := hand_down_leaf mi di k m _ NW); rewrite HD in X; exact X). subst st1.
      destruct (V2 O2 eq_refl Hh) as (-> & W2). split; [reflexivity|]. constructor; [|exact W2].
      apply (value_given_shows p wc); auto.
Qed.

Lemma items_sound : forall fuel i, sound_items fuel i.
Proof.
  induction fuel as [|fuel IH]; intros i d wc st es st' V H; [discriminate|].
  assert (Hd := visible_defs _ _ (visible_ref_visible _ _ _ V)).
  destruct (dr_def d) as [n c l|n c l|n c l|n t c] eqn:E; try (cbn [items_of] in H; rewrite E in H; discriminate).
  exists n, c, l. split; [reflexivity|]. rewrite (items_of_sequence _ _ _ _ _ _ _ _ _ E) in H.
  refine (go_sound fuel i (IH i) (DSequence n c l) Hd _ _ wc l _ _ _ _ _ H). intros m Hm. exact Hm.
Qed.

(** ** Completeness *)

Lemma items_complete : forall i p l ls, packet_leaves ms i p l ls ->
  (forall m n, In m l -> element (m_type m) = TName n -> acyclic_from ms i) ->
  (exists d, In d (all_defs bun) /\ forall m, In m l -> In m (members_of d)) ->
  Forall (fun lf => apid_ok (lf_member lf)) ls ->
  exists F, forall fuel mi di wc k st, (F <= fuel)%nat ->
    exists x, go_members (items_of fuel bun i) fuel bun i mi di wc k l st = Ok x.
Proof.
  intros i p l ls P. induction P as [p|p m r u c w s ls I P IH|p m n cm l r ls ls' E V P1 IH1 P2 IH2]; intros AC (d & Hd & Hl) A.
  - exists O. intros. eexists. reflexivity.
  - inversion A as [|? ? A1 A2]; subst. destruct (IH (fun x y Hx => AC x y (or_intror Hx)) (ex_intro _ d (conj Hd (fun x Hx => Hl x (or_intror Hx)))) A2) as (F & HF).
    exists (Nat.max (S (length ms)) F). intros fuel mi di wc k st L. cbn [go_members].
    destruct (accepted_member _ _ _ _ Hg Ha Hd (Hl m (or_introl eq_refl))) as (_ & Hok & Hra & Hn).
    destruct (item_type_info i (m_type m) (fun x => AC m x (or_introl eq_refl)) fuel _ _ _ _ ltac:(lia) Hok Hra Hn I) as (bg & en & x & Em & Ew & Er).
    destruct (hand_down st mi di k m (given_value wc (m_key m))) as [down st1]. rewrite Em. cbn [bind].
    destruct (leaf_entry_ok m (given_value wc (m_key m)) s c w bg en x Ew Er A1) as (e & Ee). rewrite Ee. cbn [bind].
    destruct (HF fuel mi di wc (S k) st1 ltac:(lia)) as ((es & st2) & E2). rewrite E2. cbn [bind]. eexists. reflexivity.
  - apply Forall_app in A. destruct A as (A1 & A2).
    destruct (IH1 (fun _ _ _ _ => AC m n (or_introl eq_refl) E) (ex_intro _ (DSequence n cm l) (conj (visible_defs _ _ V) (fun x Hx => Hx))) A1) as (F1 & HF1).
    destruct (IH2 (fun x y Hx => AC x y (or_intror Hx)) (ex_intro _ d (conj Hd (fun x Hx => Hl x (or_intror Hx)))) A2) as (F2 & HF2).
    exists (S (Nat.max (S (length ms)) (Nat.max F1 F2))). intros fuel mi di wc k st L. cbn [go_members].
    destruct (accepted_member _ _ _ _ Hg Ha Hd (Hl m (or_introl eq_refl))) as (_ & Hok & Hra & Hn).
    assert (Hc := type_ok_element _ Hok). rewrite E in Hc.
    destruct (get_definition_visible ms bun acc_build acc_unique i (AC m n (or_introl eq_refl) E) fuel _ ltac:(lia) V) as (r' & G & Ed & _). cbn [def_name] in G.
    destruct (hand_down st mi di k m (given_value wc (m_key m))) as [down st1].
    rewrite (member_info_named _ _ _ _ E Hc), G. cbn [bind]. rewrite Ed. cbn [bind].
    destruct fuel as [|fuel]; [lia|]. rewrite (items_of_sequence fuel bun i r' down st1 _ _ _ Ed).
    destruct (HF1 fuel (dr_mod r') (dr_pos r') down O st1 ltac:(lia)) as ((es1 & st2) & E1). rewrite E1. cbn [bind].
    destruct (HF2 (S fuel) mi di wc (S k) st2 ltac:(lia)) as ((es2 & st3) & E2). rewrite E2. cbn [bind]. eexists. reflexivity.
Qed.

(** With one clause each an APID may be among the leaves. *)
Lemma leaf_entry_fixed : forall m given states c w bg en r, get_bit_size c bg en = Ok w -> subrange c bg en = Ok r ->
  apid_ok m \/ (exists z, given = Some (VInt z)) \/ (exists x, given = Some (VBool x)) ->
  exists e, leaf_entry m given states (Some c) bg en = Ok e.
Proof.
  intros m given states c w bg en r Hw Hr [A|A]; [eapply leaf_entry_ok; eassumption|]. unfold leaf_entry. rewrite Hw, Hr. cbn [bind].
  destruct A as [(z & ->)|(x & ->)]; destruct (m_type m); destruct (String.eqb (m_key m) COSMOS_KEY_APID); eexists; reflexivity.
Qed.

Lemma items_complete_fixed : forall i p l ls, packet_leaves ms i p l ls ->
  (forall m n, In m l -> element (m_type m) = TName n -> acyclic_from ms i) ->
  (exists d, In d (all_defs bun) /\ forall m, In m l -> In m (members_of d)) ->
  Forall apid_given ls -> Forall one_clause ls ->
  exists F, forall fuel mi di wc k, (F <= fuel)%nat -> handed p wc ->
    exists es, go_members (items_of fuel bun i) fuel bun i mi di wc k l [] = Ok (es, []).
Proof.
  intros i p l ls P. induction P as [p|p m r u c w s ls I P IH|p m n cm l r ls ls' E V P1 IH1 P2 IH2]; intros AC (d & Hd & Hl) A O.
  - exists 0%nat. intros. eexists. reflexivity.
  - inversion A as [|? ? A1 A2]; subst. inversion O as [|? ? O1 O2]; subst.
    destruct (IH (fun x y Hx => AC x y (or_intror Hx)) (ex_intro _ d (conj Hd (fun x Hx => Hl x (or_intror Hx)))) A2 O2) as (F & HF).
    exists (Nat.max (S (length ms)) F). intros fuel mi di wc k L Hh. cbn [go_members].
    destruct (accepted_member _ _ _ _ Hg Ha Hd (Hl m (or_introl eq_refl))) as (_ & Hok & Hra & Hn).
    destruct (item_type_info i (m_type m) (fun x => AC m x (or_introl eq_refl)) fuel _ _ _ _ ltac:(lia) Hok Hra Hn I) as (bg & en & x & Em & Ew & Er).
    assert (G := given_fixed p wc (mkleaf p m u c w s) Hh eq_refl O1). cbn [lf_member] in G.
    assert (NW : forall w', given_value wc (m_key m) <> Some (VWith w')).
    { intros w' Eg. destruct O1 as (_ & O1). apply (O1 w'). rewrite G, Eg. left. reflexivity. }
    assert (HL := hand_down_leaf mi di k m _ NW).
    destruct (hand_down [] mi di k m (given_value wc (m_key m))) as [down st1]. cbn [snd] in HL. subst st1. rewrite Em. cbn [bind].
    assert (AG : apid_ok m \/ (exists z, given_value wc (m_key m) = Some (VInt z)) \/ (exists x, given_value wc (m_key m) = Some (VBool x))).
    { destruct A1 as [A1|[(z & A1)|(b & A1)]]; [left; exact A1|right; left; exists z|right; right; exists b];
        rewrite G in A1; destruct (given_value wc (m_key m)); congruence. }
    destruct (leaf_entry_fixed m (given_value wc (m_key m)) s c w bg en x Ew Er AG) as (e & Ee). rewrite Ee. cbn [bind].
    destruct (HF fuel mi di wc (S k) ltac:(lia) Hh) as (es & E2). rewrite E2. cbn [bind]. eexists. reflexivity.
  - apply Forall_app in A. destruct A as (A1 & A2). apply Forall_app in O. destruct O as (O1 & O2).
    destruct (IH1 (fun _ _ _ _ => AC m n (or_introl eq_refl) E) (ex_intro _ (DSequence n cm l) (conj (visible_defs _ _ V) (fun x Hx => Hx))) A1 O1) as (F1 & HF1).
    destruct (IH2 (fun x y Hx => AC x y (or_intror Hx)) (ex_intro _ d (conj Hd (fun x Hx => Hl x (or_intror Hx)))) A2 O2) as (F2 & HF2).
    exists (S (Nat.max (S (length ms)) (Nat.max F1 F2))). intros fuel mi di wc k L Hh. cbn [go_members].
    destruct (accepted_member _ _ _ _ Hg Ha Hd (Hl m (or_introl eq_refl))) as (_ & Hok & Hra & Hn).
    assert (Hc := type_ok_element _ Hok). rewrite E in Hc.
    destruct (get_definition_visible ms bun acc_build acc_unique i (AC m n (or_introl eq_refl) E) fuel _ ltac:(lia) V) as (r' & G & Ed & _). cbn [def_name] in G.
    assert (Hne : ls <> []) by (eapply leaves_nonempty; [exact P1|]; exact (members_nonempty _ (visible_defs _ _ V) eq_refl)).
    assert (X : Forall (fun l => NoDup (map wi_key l)) (clauses_at p) /\ (length (clauses_at (p ++ [m])) <= 1)%nat).
    { assert (Pa := leaves_path _ _ _ _ P1). destruct ls as [|lf ls]; [congruence|]. inversion Pa as [|? ? (q & Eq) _]; subst.
      inversion O1 as [|? ? (Of & _) _]; subst. split.
      - destruct (Of p ([m] ++ q)%list) as (_ & X); [rewrite Eq, <- app_assoc; reflexivity|exact X].
      - destruct (Of (p ++ [m])%list q Eq) as (X & _). exact X. }
    destruct (hand_down [] mi di k m (given_value wc (m_key m))) as [down st1] eqn:HD.
    destruct (hand_down_nested _ _ _ _ _ _ _ _ Hh (proj1 X) (proj2 X) HD) as (-> & Hh').
    rewrite (member_info_named _ _ _ _ E Hc), G. cbn [bind]. rewrite Ed. cbn [bind].
    destruct fuel as [|fuel]; [lia|]. rewrite (items_of_sequence fuel bun i r' down [] _ _ _ Ed).
    destruct (HF1 fuel (dr_mod r') (dr_pos r') down 0%nat ltac:(lia) Hh') as (es1 & E1). rewrite E1. cbn [bind].
    destruct (HF2 (S fuel) mi di wc (S k) ltac:(lia) Hh) as (es2 & E2). rewrite E2. cbn [bind]. eexists. reflexivity.
Qed.

(** ** Packets *)

Lemma index_of_first : forall n (l : list bmodule) k i, index_of n k l = Some i ->
  exists j bm, i = (k + j)%nat /\ nth_error l j = Some bm /\ bm_name bm = n
    /\ forall j' bm', (j' < j)%nat -> nth_error l j' = Some bm' -> bm_name bm' <> n.
Proof.
  intros n. induction l as [|x l IH]; intros k i H; simpl in H; [discriminate|].
  destruct (String.eqb_spec (bm_name x) n) as [E|E].
  - injection H as <-. exists O, x. split; [lia|]. split; [reflexivity|]. split; [exact E|]. intros j' bm' L. lia.
  - destruct (IH _ _ H) as (j & bm & -> & Hj & En & F). exists (S j), bm. split; [lia|]. split; [exact Hj|]. split; [exact En|].
    intros [|j'] bm' L Hj'; simpl in Hj'; [congruence|]. apply (F j' bm'); [lia|exact Hj'].
Qed.

Lemma index_of_none : forall n (l : list bmodule) k, index_of n k l = None -> find (fun bm => String.eqb (bm_name bm) n) l = None.
Proof. intros n. induction l as [|x l IH]; intros k H; simpl in *; [reflexivity|]. destruct (String.eqb (bm_name x) n); [discriminate|]. eapply IH. exact H. Qed.

Lemma index_of_named : forall n i, index_of n 0 (b_modules bun) = Some i ->
  exists m, first_named ms i m /\ mod_name m = n.
Proof.
  intros n i H. destruct (index_of_first _ _ _ _ H) as (j & bm & -> & Hj & En & F). simpl. exists (bm_mod bm).
  split; [|exact En]. split; [unfold ms, all_modules; apply map_nth_error; exact Hj|].
  intros j' m' L Hj' E. unfold ms, all_modules in Hj'. rewrite nth_error_map in Hj'.
  destruct (nth_error (b_modules bun) j') as [bm'|] eqn:Ej; [|discriminate]. injection Hj' as <-. apply (F j' bm' L Ej).
  unfold bm_name in *. congruence.
Qed.

Lemma message_ref : forall i m n r, nth_error ms i = Some m ->
  dict_get n (map (fun d => (def_name (dr_def d), d)) (module_drefs bun i)) = Some r ->
  visible_ref ms i r /\ def_name (dr_def r) = n /\ In (dr_def r) (mod_defs m).
Proof.
  intros i m n r Hm H. apply dict_get_In in H. apply in_map_iff in H. destruct H as (x & E & Hx). injection E as <- <-.
  apply (module_drefs_In ms bun acc_build) in Hx. destruct Hx as (<- & m' & Hm' & Hd). assert (m' = m) by congruence. subst m'.
  split; [|split; [reflexivity|eapply nth_error_In; exact Hd]]. split; [constructor|]. eauto.
Qed.

Lemma packets_sound : forall fuel i m msgs st ps, nth_error ms i = Some m -> packets fuel bun i msgs st = Ok ps ->
  Forall2 (describes shows ms i m) msgs ps.
Proof.
  intros fuel i m msgs. induction msgs as [|n r IH]; intros st ps Hm H; cbn [packets] in H.
  - injection H as <-. constructor.
  - destruct (dict_get n _) as [d|] eqn:E; [|discriminate]. destruct (message_ref _ _ _ _ Hm E) as (V & En & Hd).
    apply bind_ok in H. destruct H as ((es & st') & Hi & H). apply bind_ok in H. destruct H as (rest & Hr & H). injection H as <-.
    constructor; [|apply (IH st'); assumption].
    destruct (items_sound _ _ _ _ _ _ _ V Hi) as (n' & c & l & Ed & Hp). destruct (Hp []) as (ls & P & Sh & _).
    rewrite Ed in *. simpl in En. subst n'. exists c, l, ls. auto.
Qed.

Lemma packets_values : forall fuel i m msgs ps, nth_error ms i = Some m -> one_clause_each ms i m msgs ->
  packets fuel bun i msgs [] = Ok ps ->
  Forall2 (fun n p => describes (fun lf e => shows lf e /\ shows_value lf e) ms i m n p
                      /\ packets fuel bun i [n] [] = Ok [p]) msgs ps.
Proof.
  intros fuel i m msgs. induction msgs as [|n r IH]; intros ps Hm O H; cbn [packets] in H.
  - injection H as <-. constructor.
  - destruct (dict_get n _) as [d|] eqn:E; [|discriminate]. destruct (message_ref _ _ _ _ Hm E) as (V & En & Hd).
    apply bind_ok in H. destruct H as ((es & st') & Hi & H). apply bind_ok in H. destruct H as (rest & Hr & H). injection H as <-.
    destruct (items_sound _ _ _ _ _ _ _ V Hi) as (n' & c & l & Ed & Hp). destruct (Hp []) as (ls & P & Sh & Vl).
    rewrite Ed in *. simpl in En. subst n'.
    destruct (Vl (O n c l ls (or_introl eq_refl) Hd P) eq_refl handed_nil) as (-> & Sv).
    constructor.
    + split.
      * exists c, l, ls. split; [exact Hd|]. split; [reflexivity|]. split; [reflexivity|]. split; [exact P|]. cbn [pk_entries].
        clear - Sh Sv. induction Sh as [|lf e ls es A Sh IH]; [constructor|]. inversion Sv; subst. constructor; auto.
      * cbn [packets]. rewrite E, Hi. cbn [bind]. rewrite Ed. reflexivity.
    + apply IH; [exact Hm| |exact Hr]. intros x cm l' ls' Hx. apply O. right. exact Hx.
Qed.

Lemma cosmos_packets_inv : forall fuel mn msgs ps, cosmos_packets fuel bun mn msgs = Ok ps ->
  (msgs = [] /\ ps = [] /\ ~ In mn (map mod_name ms))
  \/ exists i m, first_named ms i m /\ mod_name m = mn /\ packets fuel bun i msgs [] = Ok ps.
Proof.
  intros fuel mn msgs ps H. unfold cosmos_packets in H. apply bind_ok in H. destruct H as (bm & Hbm & H).
  apply bind_ok in H. destruct H as (u & Hu & H). apply assert_ok' in Hu. apply set_diff_nil in Hu.
  destruct (index_of mn 0 (b_modules bun)) as [i|] eqn:E.
  - right. destruct (index_of_named _ _ E) as (m & F & En). eauto.
  - left. injection H as <-. unfold get_module in Hbm. destruct (is_nil (b_modules bun)); [discriminate|]. injection Hbm as <-.
    apply index_of_none in E. rewrite E in Hu. split; [|split; [reflexivity|]].
    + destruct msgs as [|x r]; [reflexivity|]. destruct (Hu x (or_introl eq_refl)).
    + intros Hin. unfold ms, all_modules in Hin. rewrite map_map in Hin. apply in_map_iff in Hin. destruct Hin as (y & Ey & Hy).
      apply (find_none _ _ E) in Hy. unfold bm_name in Hy. apply String.eqb_neq in Hy. congruence.
Qed.

Lemma index_of_complete : forall n (l : list bmodule) k j bm, nth_error l j = Some bm -> bm_name bm = n ->
  (forall j' bm', (j' < j)%nat -> nth_error l j' = Some bm' -> bm_name bm' <> n) -> index_of n k l = Some (k + j)%nat
  /\ find (fun bm => String.eqb (bm_name bm) n) l = Some bm.
Proof.
  intros n. induction l as [|x l IH]; intros k j bm Hj En F; [destruct j; discriminate|]. destruct j as [|j]; simpl in *.
  - injection Hj as ->. rewrite En, String.eqb_refl. split; [f_equal; lia|reflexivity].
  - assert (X := F O x ltac:(lia) eq_refl). apply String.eqb_neq in X. rewrite X.
    destruct (IH (S k) j bm Hj En) as (A & B).
    { intros j' bm' L Hj'. apply (F (S j') bm'); [lia|exact Hj']. }
    split; [rewrite A; f_equal; lia|exact B].
Qed.

Lemma message_missing : forall i m n cm l, nth_error ms i = Some m -> In (DSequence n cm l) (mod_defs m) ->
  dict_get n (map (fun d => (def_name (dr_def d), d)) (module_drefs bun i)) <> None.
Proof.
  intros i m n cm l Hm Hd E. apply dict_get_None in E. apply E. rewrite map_map. simpl. apply In_nth_error in Hd. destruct Hd as (k & Hk).
  apply in_map_iff. exists (mkdref i k (DSequence n cm l)). split; [reflexivity|]. apply (module_drefs_In ms bun acc_build). split; [reflexivity|].
  exists m. auto.
Qed.

Definition resolved (Q : leaf -> Prop) (i : nat) (m : module) (msgs : list string) : Prop :=
  forall n, In n msgs -> exists cm l ls, In (DSequence n cm l) (mod_defs m) /\ packet_leaves ms i [] l ls /\ Forall Q ls.

Lemma packets_complete : forall i m msgs, nth_error ms i = Some m -> (looks_up m msgs -> acyclic_from ms i) ->
  resolved (fun lf => apid_ok (lf_member lf)) i m msgs ->
  exists F, forall fuel st, (F <= fuel)%nat -> exists ps, packets fuel bun i msgs st = Ok ps.
Proof.
  intros i m msgs Hm AC H. induction msgs as [|n r IH].
  - exists O. intros. eexists. reflexivity.
  - assert (ACr : looks_up m r -> acyclic_from ms i).
    { intros (n' & cm & l & k & x & Hn & X). apply AC. exists n', cm, l, k, x. split; [right; exact Hn|exact X]. }
    destruct (IH ACr (fun x Hx => H x (or_intror Hx))) as (F1 & HF1). destruct (H n (or_introl eq_refl)) as (cm & l & ls & Hd & P & A).
    assert (Hdd : In (DSequence n cm l) (all_defs bun)).
    { apply in_flat_map. exists m. split; [eapply nth_error_In; exact Hm|exact Hd]. }
    assert (ACl : forall k x, In k l -> element (m_type k) = TName x -> acyclic_from ms i).
    { intros k x Hk Ek. apply AC. exists n, cm, l, k, x. repeat split; try assumption. left. reflexivity. }
    destruct (items_complete i [] l ls P ACl (ex_intro _ _ (conj Hdd (fun x Hx => Hx))) A) as (F2 & HF2).
    exists (S (Nat.max F1 F2)). intros fuel st L. cbn [packets].
    destruct (dict_get n (map (fun d => (def_name (dr_def d), d)) (module_drefs bun i))) as [d|] eqn:E.
    + destruct (message_ref _ _ _ _ Hm E) as (V & Ed & Hd').
      assert (X : dr_def d = DSequence n cm l).
      { apply (NoDup_map_inj _ _ _ _ _ _ acc_unique); [|exact Hdd|exact Ed]. apply (visible_defs i). apply visible_ref_visible. exact V. }
      destruct fuel as [|fuel]; [lia|]. rewrite (items_of_sequence _ _ _ _ _ _ _ _ _ X).
      destruct (HF2 fuel (dr_mod d) (dr_pos d) [] O st ltac:(lia)) as ((es & st') & E1). rewrite E1. cbn [bind].
      destruct (HF1 (S fuel) st' ltac:(lia)) as (ps & E2). rewrite E2. cbn [bind]. eexists. reflexivity.
    + exfalso. eapply message_missing; eassumption.
Qed.

Lemma packets_complete_fixed : forall i m msgs, nth_error ms i = Some m -> (looks_up m msgs -> acyclic_from ms i) ->
  resolved (fun lf => apid_given lf /\ one_clause lf) i m msgs ->
  exists F, forall fuel, (F <= fuel)%nat -> exists ps, packets fuel bun i msgs [] = Ok ps.
Proof.
  intros i m msgs Hm AC H. induction msgs as [|n r IH].
  - exists O. intros. eexists. reflexivity.
  - assert (ACr : looks_up m r -> acyclic_from ms i).
    { intros (n' & cm & l & k & x & Hn & X). apply AC. exists n', cm, l, k, x. split; [right; exact Hn|exact X]. }
    destruct (IH ACr (fun x Hx => H x (or_intror Hx))) as (F1 & HF1). destruct (H n (or_introl eq_refl)) as (cm & l & ls & Hd & P & A).
    assert (Hdd : In (DSequence n cm l) (all_defs bun)).
    { apply in_flat_map. exists m. split; [eapply nth_error_In; exact Hm|exact Hd]. }
    assert (A1 : Forall apid_given ls) by (revert A; apply Forall_impl; tauto).
    assert (A2 : Forall one_clause ls) by (revert A; apply Forall_impl; tauto).
    assert (ACl : forall k x, In k l -> element (m_type k) = TName x -> acyclic_from ms i).
    { intros k x Hk Ek. apply AC. exists n, cm, l, k, x. repeat split; try assumption. left. reflexivity. }
    destruct (items_complete_fixed i [] l ls P ACl (ex_intro _ _ (conj Hdd (fun x Hx => Hx))) A1 A2) as (F2 & HF2).
    exists (S (Nat.max F1 F2)). intros fuel L. cbn [packets].
    destruct (dict_get n (map (fun d => (def_name (dr_def d), d)) (module_drefs bun i))) as [d|] eqn:E.
    + destruct (message_ref _ _ _ _ Hm E) as (V & Ed & Hd').
      assert (X : dr_def d = DSequence n cm l).
      { apply (NoDup_map_inj _ _ _ _ _ _ acc_unique); [|exact Hdd|exact Ed]. apply (visible_defs i). apply visible_ref_visible. exact V. }
      destruct fuel as [|fuel]; [lia|]. rewrite (items_of_sequence _ _ _ _ _ _ _ _ _ X).
      destruct (HF2 fuel (dr_mod d) (dr_pos d) [] O ltac:(lia) handed_nil) as (es & E1). rewrite E1. cbn [bind].
      destruct (HF1 (S fuel) ltac:(lia)) as (ps & E2). rewrite E2. cbn [bind]. eexists. reflexivity.
    + exfalso. eapply message_missing; eassumption.
Qed.

Lemma cosmos_packets_complete : forall mn i m msgs, first_named ms i m -> mod_name m = mn ->
  (looks_up m msgs -> acyclic_from ms i) ->
  resolved (fun lf => apid_ok (lf_member lf)) i m msgs \/ resolved (fun lf => apid_given lf /\ one_clause lf) i m msgs ->
  exists F, forall fuel, (F <= fuel)%nat -> exists ps, cosmos_packets fuel bun mn msgs = Ok ps.
Proof.
  intros mn i m msgs (Hm & First) En AC H.
  assert (P : exists F, forall fuel, (F <= fuel)%nat -> exists ps, packets fuel bun i msgs [] = Ok ps).
  { destruct H as [H|H]; [|eapply packets_complete_fixed; eassumption].
    destruct (packets_complete _ _ _ Hm AC H) as (F & HF). exists F. intros fuel L. apply HF. exact L. }
  assert (HD : forall n, In n msgs -> exists cm l, In (DSequence n cm l) (mod_defs m)).
  { intros n Hn. destruct H as [H|H]; destruct (H n Hn) as (cm & l & ls & Hd & _); eauto. }
  assert (Hm' := Hm). unfold ms, all_modules in Hm'. rewrite nth_error_map in Hm'.
  destruct (nth_error (b_modules bun) i) as [bm|] eqn:Ebm; [|discriminate]. injection Hm' as <-.
  assert (IX : index_of mn 0 (b_modules bun) = Some i /\ find (fun bm => String.eqb (bm_name bm) mn) (b_modules bun) = Some bm).
  { apply (index_of_complete mn _ 0 i bm Ebm En). intros j bm' L Hj. rewrite <- En. apply (First j); [exact L|].
    unfold ms, all_modules. apply map_nth_error. exact Hj. }
  destruct IX as (IX & FD).
  destruct P as (F & HF). exists F. intros fuel L. unfold cosmos_packets, get_module.
  assert (NN : is_nil (b_modules bun) = false) by (destruct (b_modules bun); [destruct i; discriminate|reflexivity]).
  rewrite NN. cbn [bind]. rewrite FD. cbn [bind].
  replace (is_nil (set_diff msgs (map def_name (mod_defs (bm_mod bm))))) with true.
  - cbn [assert bind]. rewrite IX. apply HF. exact L.
  - symmetry. apply set_diff_nil. intros n Hn. destruct (HD n Hn) as (cm & l' & Hd).
    change n with (def_name (DSequence n cm l')). apply in_map. exact Hd.
Qed.

End Accepted.
