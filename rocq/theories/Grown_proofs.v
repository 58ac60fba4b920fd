(** * Proofs: further definitions, lists, validity and success (C94) *)
From Coq Require Import Permutation Sorted Lia.
From Verif Require Import Base PyNum PyStr Ast Size Processor Bundle Sorter CCommon GenCfs GenC GenBinary GenCosmos Main
  Lib_proofs Str_proofs Spec_Enum Enum_proofs Spec_Num Num_proofs Spec_Check Check_proofs Spec_Grammar Spec_Bundle Bundle_proofs
  Name_proofs Accept_proofs Spec_Gen Gen_proofs Field_proofs Spec_Order Order_proofs Cdata_proofs Run_proofs Note_proofs
  Spec_Files Files_proofs Fuel_proofs Spec_Layout Spec_Cfs Spec_Binary Spec_Runs Runs_proofs Runs2_proofs Spec_Failures Failures_proofs
  Spec_Inputs Inputs_proofs Spec_Size Spec_Reorder Spec_Grown.
Open Scope string_scope.
Open Scope list_scope.

(** ** Insertion *)

Lemma inserted_incl : forall A (l l' : list A), inserted l l' -> incl l l'.
Proof. intros A l l' H. induction H as [|x l l' H IH|x l l' H IH]; intros y Y; [destruct Y|destruct Y as [<-|Y]; [left; reflexivity|right; apply IH, Y]|right; apply IH, Y]. Qed.
Lemma inserted_map : forall A B (f : A -> B) l l', inserted l l' -> inserted (map f l) (map f l').
Proof. intros A B f l l' H. induction H; cbn [map]; constructor; assumption. Qed.
Lemma inserted_filter : forall A (keep : A -> bool) l, inserted (filter keep l) l.
Proof. intros A keep l. induction l as [|x l IH]; [constructor|]. cbn [filter]. destruct (keep x); constructor; exact IH. Qed.
Lemma inserted_app : forall A (a a' l l' : list A), inserted a a' -> inserted l l' -> inserted (a ++ l) (a' ++ l').
Proof. intros A a a' l l' H K. induction H; cbn [app]; try constructor; assumption. Qed.
Lemma inserted_nodup : forall A (l l' : list A), inserted l l' -> NoDup l' -> NoDup l.
Proof.
  intros A l l' H. induction H as [|x l l' H IH|x l l' H IH]; intros N; [constructor| |]; inversion N as [|? ? N1 N2]; subst; [|auto].
  constructor; [|auto]. intros X. apply N1, (inserted_incl _ _ _ H), X.
Qed.

(** The list without the further elements. *)
Lemma kept : forall A (name : A -> string) (keep : A -> bool) l l', inserted l l' -> NoDup (map name l') ->
  (forall x, In x l -> keep x = true) -> (forall x, In x l' -> keep x = true -> In (name x) (map name l)) -> filter keep l' = l.
Proof.
  intros A name keep l l' H. induction H as [|x l l' H IH|x l l' H IH]; intros N K1 K2; [reflexivity| |]; cbn [map] in N; inversion N as [|? ? N1 N2]; subst; cbn [filter].
  - rewrite (K1 x (or_introl eq_refl)). f_equal. apply IH; [exact N2|intros y Y; apply K1; right; exact Y|]. intros y Y Ky.
    destruct (K2 y (or_intror Y) Ky) as [E|Q]; [|exact Q]. exfalso. apply N1. rewrite E. apply in_map, Y.
  - destruct (keep x) eqn:Kx.
    + exfalso. apply N1. apply (inserted_incl _ _ _ (inserted_map _ _ name _ _ H)). apply K2; [left; reflexivity|exact Kx].
    + apply IH; [exact N2|exact K1|]. intros y Y Ky. apply K2; [right; exact Y|exact Ky].
Qed.

(** ** Modules and inputs *)

Lemma grown_def : forall m m' d, grown m m' -> In d (mod_defs m) -> In d (mod_defs m').
Proof. intros m m' d S. apply inserted_incl, S. Qed.
Lemma grown_defined : forall m m' n, grown m m' -> In n (defined_names m) -> In n (defined_names m').
Proof. intros m m' n S. apply inserted_incl. apply inserted_map, S. Qed.
Lemma grown_uses : forall m m' n, grown m m' -> uses_type m n -> uses_type m' n.
Proof. intros m m' n S (d & k & D & K). exists d, k. split; [eapply grown_def; eassumption|exact K]. Qed.
Lemma grown_names : forall ms ms', Forall2 grown ms ms' -> map mod_name ms' = map mod_name ms.
Proof. intros ms ms' F. induction F as [|m m' l l' S F IH]; [reflexivity|]. cbn [map]. rewrite IH, (gr_name _ _ S). reflexivity. Qed.
Lemma grown_definitions : forall ms ms', Forall2 grown ms ms' -> inserted (definitions ms) (definitions ms').
Proof. intros ms ms' F. induction F as [|m m' l l' S F IH]; [constructor|]. cbn [definitions flat_map]. apply inserted_app; [apply S|exact IH]. Qed.
Lemma grown_in : forall ms ms' m, Forall2 grown ms ms' -> In m ms -> exists m', In m' ms' /\ grown m m'.
Proof. intros ms ms' m F H. exact (Forall2_in_l _ _ _ _ _ _ F H). Qed.
Lemma grown_in_r : forall ms ms' m', Forall2 grown ms ms' -> In m' ms' -> exists m, In m ms /\ grown m m'.
Proof. intros ms ms' m F H. exact (Forall2_in_r _ _ _ _ _ _ F H). Qed.
Lemma grown_nth : forall ms ms' i m, Forall2 grown ms ms' -> nth_error ms i = Some m -> exists m', nth_error ms' i = Some m' /\ grown m m'.
Proof.
  intros ms ms' i m F. revert i. induction F as [|x x' l l' S F IH]; intros [|i] H; try discriminate; cbn [nth_error] in *; [|auto].
  injection H as <-. eauto.
Qed.
Lemma grown_nth_r : forall ms ms' i m', Forall2 grown ms ms' -> nth_error ms' i = Some m' -> exists m, nth_error ms i = Some m /\ grown m m'.
Proof.
  intros ms ms' i m F. revert i. induction F as [|x x' l l' S F IH]; intros [|i] H; try discriminate; cbn [nth_error] in *; [|auto].
  injection H as <-. eauto.
Qed.

(** A definition of the larger module whose name the smaller input has is one
    of the smaller module. *)
Lemma old_name : forall ms ms' m m' i d, Forall2 grown ms ms' -> NoDup (map def_name (definitions ms')) ->
  nth_error ms i = Some m -> nth_error ms' i = Some m' -> In d (mod_defs m') -> In (def_name d) (map def_name (definitions ms)) -> In d (mod_defs m).
Proof.
  intros ms ms' m m' i d F N M M' D H. apply in_map_iff in H as (x & E & H). apply in_flat_map in H as (u & U & X).
  apply In_nth_error in U as (j & U). destruct (grown_nth _ _ _ _ F U) as (u' & U' & S).
  assert (X' := grown_def _ _ _ S X).
  assert (N2 : NoDup (flat_map (fun m => map def_name (mod_defs m)) ms')).
  { unfold definitions in N. rewrite flat_map_concat_map, concat_map, map_map, <- flat_map_concat_map in N. exact N. }
  assert (i = j) as <-.
  { eapply (NoDup_flat_map_inj _ _ _ _ _ _ _ _ (def_name d) N2 M' U'); [apply in_map, D|]. rewrite <- E. apply in_map, X'. }
  assert (u = m) as -> by congruence.
  assert (x = d) as <-; [|exact X]. apply (nodup_def (definitions ms')); [exact N| | |exact E]; apply in_flat_map.
  - exists u'. split; [eapply nth_error_In; exact U'|exact X'].
  - exists m'. split; [eapply nth_error_In; exact M'|exact D].
Qed.

(** ** Success *)

Section Valid.
Variables (names : list string) (input input' : list module).
Hypothesis F : Forall2 grown input input'.
Hypothesis V : bundle_valid names input.
Hypothesis P : processable names input'.

Lemma more_definitions : incl (definitions input) (definitions input').
Proof. apply inserted_incl, grown_definitions, F. Qed.
Lemma more_unique : NoDup (map def_name (definitions input')).
Proof. exact (bv_names _ _ (pr_valid _ _ P)). Qed.

(** The type of a member is defined in the smaller input. *)
Lemma used_defined : forall n c l k x d, In (DSequence n c l) (definitions input) -> In k l -> element (m_type k) = TName x ->
  In d (definitions input') -> def_name d = x -> In d (definitions input).
Proof.
  intros n c l k x d H K E D En. destruct (part_defined _ _ _ _ _ x (bv_modules _ _ V) (bv_imports _ _ V) H K E) as (d0 & D0 & E0).
  assert (d0 = d) as <-; [|exact D0]. apply (nodup_def _ _ _ more_unique (more_definitions _ D0) D). congruence.
Qed.

Lemma fewer_processable : processable names input.
Proof.
  split; [exact V| | |].
  - intros (x & X). apply (pr_imports _ _ P). exists x. revert X. generalize x at 2 4. intros y X.
    induction X as [x y (m & it & M & H)|x y z X1 I1 X2 I2]; [|eapply Relation_Operators.t_trans; eassumption].
    apply Relation_Operators.t_step. destruct (grown_in _ _ _ F M) as (m' & M' & S). exists m', it. rewrite (gr_name _ _ S), (gr_imports _ _ S). auto.
  - intros m M (x & X). destruct (grown_in _ _ _ F M) as (m' & M' & S). apply (pr_types _ _ P m' M'). exists x. revert X. generalize x at 2 4. intros y X.
    induction X as [x y (d & k & D & N & K & E & I)|x y z X1 I1 X2 I2]; [|eapply Relation_Operators.t_trans; eassumption].
    apply Relation_Operators.t_step. exists d, k. repeat split; auto; [eapply grown_def; eassumption|eapply grown_defined; eassumption].
  - intros n c l k H K. destruct (pr_members _ _ P n c l k (more_definitions _ H) K) as [E|s x E|E D|x t' c' E Q D|x d E Q Eq S].
    + apply has_boolean, E.
    + eapply has_string, E.
    + apply has_number; assumption.
    + eapply has_simple; [exact E| |exact D]. eapply used_defined; [exact H|exact K|exact E|exact Q|reflexivity].
    + eapply has_other; [exact E| |exact Eq|exact S]. eapply used_defined; eassumption.
Qed.

Lemma fewer_cfs : cfs_processable input' -> cfs_processable input.
Proof.
  intros [V1 V2]. split.
  - intros n c l k w H. apply (V1 n c l k w), more_definitions, H.
  - intros n t c m H M U. destruct (grown_in _ _ _ F M) as (m' & M' & S). apply (V2 n t c m'); [apply more_definitions, H|exact M'|eapply grown_uses; eassumption].
Qed.

(** Sizes and images of what the smaller input has. *)
Definition closed_type (t : asn_type) : Prop := forall x d, element t = TName x -> In d (definitions input') -> def_name d = x -> In d (definitions input).
Lemma member_closed : forall n c l k, In (DSequence n c l) (definitions input) -> In k l -> closed_type (m_type k).
Proof. intros n c l k H K x d E D En. eapply used_defined; eassumption. Qed.

Lemma fewer_leaf_size : forall t w, closed_type t -> leaf_size (definitions input') t w -> leaf_size (definitions input) t w.
Proof.
  intros t w K H. revert K. destruct H as [t0 w0 A B|n c t0 w0 A B|n c l w0 A B|n w0 A B]; intros K.
  - apply leaf_value; assumption.
  - eapply leaf_simple; [|exact B]. apply (K n); [reflexivity|exact A|reflexivity].
  - eapply leaf_enum; [|exact B]. apply (K n); [reflexivity|exact A|reflexivity].
  - apply leaf_undefined; [|exact B]. intros H. apply A. apply in_map_iff in H as (d & <- & D). apply in_map, more_definitions, D.
Qed.
Lemma fewer_leaves : forall l ls, leaves (definitions input') l ls -> (forall k, In k l -> closed_type (m_type k)) -> leaves (definitions input) l ls.
Proof.
  intros l ls H. induction H as [|m w r ls A B IH|m n c l r ls ls' A B C IH1 D IH2]; intros K; [constructor|..].
  - constructor; [apply fewer_leaf_size; [apply K; left; reflexivity|exact A]|]. apply IH. intros k J. apply K. right. exact J.
  - assert (Q : In (DSequence n c l) (definitions input)) by (apply (K m (or_introl eq_refl) n); [rewrite A; reflexivity|exact B|reflexivity]).
    eapply leaves_nested; [exact A|exact Q|apply IH1; intros k J; eapply member_closed; eassumption|apply IH2; intros k J; apply K; right; exact J].
Qed.
Lemma fewer_bit_size : forall t w, closed_type t -> bit_size (definitions input') t w -> bit_size (definitions input) t w.
Proof.
  intros t w K [H|(n & c & l & ls & -> & A & B & ->)]; [left; apply fewer_leaf_size; assumption|right].
  assert (Q : In (DSequence n c l) (definitions input)) by (apply (K n); [reflexivity|exact A|reflexivity]).
  exists n, c, l, ls. repeat split; [exact Q|]. apply fewer_leaves; [exact B|]. intros k J. eapply member_closed; eassumption.
Qed.
Lemma fewer_encoded : forall t enc, closed_type t -> encoded_as (definitions input') t enc -> encoded_as (definitions input) t enc.
Proof. intros t enc K H. revert K. destruct H; intros K; econstructor; eauto using fewer_bit_size. Qed.

Lemma fewer_image : forall i m m', nth_error input i = Some m -> nth_error input' i = Some m' -> forall e t w b,
  clause_image (definitions input') (mod_defs m') e t w b -> closed_type t -> clause_image (definitions input) (mod_defs m) e t w b.
Proof.
  intros i m m' M M' e. fix IH 4. intros t w b [t0 n c ms cm l b0 A B C] Kt.
  assert (Bd : In (DSequence n c ms) (definitions input)).
  { apply (Kt n); [exact A| |reflexivity]. apply in_flat_map. exists m'. split; [eapply nth_error_In; exact M'|exact B]. }
  assert (Bm : In (DSequence n c ms) (mod_defs m)) by (eapply old_name; [exact F|exact more_unique|exact M|exact M'|exact B|apply in_map; exact Bd]).
  econstructor; [exact A|exact Bm|].
  assert (Km : forall k, In k ms -> closed_type (m_type k)) by (intros k J; eapply member_closed; eassumption).
  clear A B Bd Bm. revert ms l b0 C Km. fix IH' 4. intros ms l b0 [ms0|ms0 k v c0 r x enc b1 b2 L Q R S T|ms0 k w0 c0 r x b1 b2 L Q T] Km.
  - constructor.
  - eapply items_leaf; [exact L|exact Q|apply fewer_encoded; [|exact R]|exact S|apply IH'; assumption].
    apply Km. destruct L as (p & q & -> & _). apply in_elt.
  - eapply items_nested; [exact L|apply IH; [exact Q|]|apply IH'; assumption]. apply Km. destruct L as (p & q & -> & _). apply in_elt.
Qed.

Lemma fewer_binary : forall e, binary_processable e input' -> binary_processable e input.
Proof.
  intros e [V1 V2].
  assert (Idx : forall m n c l, In m input -> In (DSequence n c l) (mod_defs m) -> In (DSequence n c l) (definitions input)).
  { intros m n c l M D. apply in_flat_map. eauto. }
  split.
  - intros m n c l k n' c' l' k' M D K W D' K' W'. destruct (grown_in _ _ _ F M) as (m' & M' & S).
    destruct (V1 m' n c l k n' c' l' k' M' (grown_def _ _ _ S D) K W (grown_def _ _ _ S D') K' W') as (w & B). exists w.
    apply fewer_bit_size; [|exact B]. eapply member_closed; [eapply Idx; eassumption|exact K'].
  - intros m n c l k w M D K W. apply In_nth_error in M as (i & M). destruct (grown_nth _ _ _ _ F M) as (m' & M' & S).
    destruct (V2 m' n c l k w (nth_error_In _ _ M') (grown_def _ _ _ S D) K W) as (e' & b & E & B). exists e', b. split; [exact E|].
    eapply fewer_image; [exact M|exact M'|exact B|]. eapply member_closed; [eapply Idx; [eapply nth_error_In; exact M|exact D]|exact K].
Qed.
End Valid.

Theorem fewer_definitions_succeed : forall names cmd input input' fuel' fs', config_command names cmd ->
  Forall (fun m => grammatical m = true) input -> Forall (fun m => grammatical m = true) input' -> Forall2 grown input input' ->
  bundle_valid names input -> snd (run fuel' cmd input' fs') = Ok tt ->
  exists F, forall fuel fs, (F <= fuel)%nat -> snd (run fuel cmd input fs) = Ok tt.
Proof.
  intros names cmd input input' fuel' fs' Hc G G' F V R.
  exists (S (length input + length (definitions input))). intros fuel fs L. destruct Hc as [->|[->|(e & ->)]].
  - destruct (proj1 (cfs_run_iff names input' G' fs') fuel' R) as (P & Q).
    apply (cfs_run_iff names input G fs); [eapply fewer_processable|eapply fewer_cfs|]; eassumption.
  - assert (P := proj1 (c_run_iff names input' G' fs') fuel' R).
    apply (c_run_iff names input G fs); [eapply fewer_processable|]; eassumption.
  - destruct (proj1 (binary_run_iff names input' G' e fs') fuel' R) as (P & Q).
    apply (binary_run_iff names input G e fs); [eapply fewer_processable|eapply fewer_binary|]; eassumption.
Qed.
