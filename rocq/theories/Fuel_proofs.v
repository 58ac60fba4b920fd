(** * Proofs: more fuel changes nothing but OutOfFuel *)
From Coq Require Import Lia List.
From Verif Require Import Base PyNum PyStr Ast Size Processor Bundle Sorter CCommon GenCfs GenC GenBinary GenCosmos Main Lib_proofs
  Spec_Layout Layout_proofs Cosmos_proofs.

Definition below {A} (r r' : result A) : Prop := r = OutOfFuel \/ r' = r.

Lemma below_refl : forall A (r : result A), below r r.
Proof. intros A r. right. reflexivity. Qed.

Lemma below_bind : forall A B (r r' : result A) (f f' : A -> result B), below r r' -> (forall a, below (f a) (f' a)) ->
  below (bind r f) (bind r' f').
Proof.
  intros A B r r' f f' [->| ->] H; [left; reflexivity|]. destruct r as [a|e|]; cbn [bind]; [apply H|right; reflexivity|left; reflexivity].
Qed.

Ltac step := first
  [ apply below_refl
  | apply below_bind; [|intros]
  | match goal with |- below (match ?x with _ => _ end) _ => destruct x end ].

Lemma below_map_result : forall A B (f f' : A -> result B) l, (forall x, below (f x) (f' x)) -> below (map_result f l) (map_result f' l).
Proof.
  intros A B f f' l H. induction l as [|x l IH]; cbn [map_result]; [apply below_refl|].
  apply below_bind; [apply H|]. intros y. apply below_bind; [exact IH|]. intros ys. apply below_refl.
Qed.

Section More.
Variables fuel fuel' : nat.
Hypothesis L : (fuel <= fuel')%nat.

Lemma member_size_below : forall ds t, below (member_size fuel ds t) (member_size fuel' ds t).
Proof.
  intros ds t. destruct (member_size fuel ds t) as [w|e|] eqn:E; [right|right|left; reflexivity];
    (eapply member_size_more; [exact L|exact E|discriminate]).
Qed.

Lemma map_member_below : forall ds t, below (map_member fuel ds t) (map_member fuel' ds t).
Proof.
  intros ds t. unfold map_member. repeat step. apply member_size_below.
Qed.

Lemma convert_member_below : forall ds sds m, below (convert_member fuel ds sds m) (convert_member fuel' ds sds m).
Proof.
  intros ds sds m. unfold convert_member. apply below_bind; [apply map_member_below|]. intros. apply below_refl.
Qed.

Lemma convert_members_below : forall ds sds wch wch' n, (forall n k, below (wch n k) (wch' n k)) -> forall l fields acc,
  below (convert_members fuel ds sds wch n l fields acc) (convert_members fuel' ds sds wch' n l fields acc).
Proof.
  intros ds sds wch wch' n H. induction l as [|m l IH]; intros fields acc; cbn [convert_members]; [apply below_refl|].
  apply below_bind; [apply convert_member_below|]. intros [[f sb] si]. apply below_bind; [|intros acc'; apply IH].
  destruct (m_with m); [|apply below_refl]. apply below_bind; [apply H|]. intros. apply below_refl.
Qed.

Lemma convert_definitions_below : forall ds sds note wch wch', (forall n k, below (wch n k) (wch' n k)) -> forall l acc,
  below (convert_definitions fuel ds sds note wch l acc) (convert_definitions fuel' ds sds note wch' l acc).
Proof.
  intros ds sds note wch wch' H. induction l as [|d l IH]; intros acc; cbn [convert_definitions]; [apply below_refl|].
  apply below_bind; [|intros acc'; apply IH]. destruct d as [n c l'|n c l'|n c l'|n t c]; cbn [convert_definition]; try apply below_refl.
  apply below_bind; [|intros; apply below_refl]. unfold convert_sequence. apply below_bind; [apply convert_members_below; exact H|].
  intros [fields acc']. apply below_refl.
Qed.

Lemma sort_loop_below : forall todo don defined, below (sort_loop fuel todo don defined) (sort_loop fuel' todo don defined).
Proof.
  revert fuel' L. induction fuel as [|f IH]; intros f' Lf todo don defined.
  - destruct todo; cbn [sort_loop]; [destruct f'; apply below_refl|left; reflexivity].
  - destruct f' as [|f']; [lia|]. destruct todo as [|d todo]; [apply below_refl|]. cbn [sort_loop].
    destruct (sort_pass (d :: todo) don defined) as [[done' defined'] rest]. apply IH. lia.
Qed.

Lemma order_loop_below : forall st, below (order_loop fuel st) (order_loop fuel' st).
Proof.
  revert fuel' L. induction fuel as [|f IH]; intros f' Lf st.
  - cbn [order_loop]. destruct (os_list st) eqn:E; [destruct f'; cbn [order_loop]; rewrite E; apply below_refl|left; reflexivity].
  - destruct f' as [|f']; [lia|]. cbn [order_loop]. destruct (os_list st); [apply below_refl|].
    apply below_bind; [apply below_refl|]. intros st'. apply IH. lia.
Qed.

Lemma module_cdata_below : forall b bm inc note wch wch', (forall n k, below (wch n k) (wch' n k)) ->
  below (module_cdata fuel b bm inc note wch) (module_cdata fuel' b bm inc note wch').
Proof.
  intros b bm inc note wch wch' H. unfold module_cdata. apply below_bind; [apply sort_loop_below|]. intros sorted.
  apply below_bind; [apply convert_definitions_below; exact H|]. intros c. apply below_refl.
Qed.

Lemma member_specs_below : forall ds l, below (member_specs fuel ds l) (member_specs fuel' ds l).
Proof.
  intros ds. induction l as [|m l IH]; cbn [member_specs]; [apply below_refl|]. destruct (m_with m); [exact IH|].
  apply below_bind; [apply member_size_below|]. intros s. apply below_bind; [exact IH|]. intros r. apply below_refl.
Qed.

Lemma sequence_specs_below : forall ds l, below (sequence_specs fuel ds l) (sequence_specs fuel' ds l).
Proof.
  intros ds. induction l as [|d l IH]; cbn [sequence_specs]; [apply below_refl|].
  destruct d as [n c l'|n c l'|n c l'|n t c]; try exact IH.
  apply below_bind; [apply member_specs_below|]. intros s. apply below_bind; [exact IH|]. intros r. apply below_refl.
Qed.

Lemma bin_clause_below : forall e ds m n k, below (bin_with_components fuel e ds m n k) (bin_with_components fuel' e ds m n k).
Proof.
  intros e ds m n k. unfold bin_with_components. destruct (m_with k); [|apply below_refl].
  apply below_bind; [apply sequence_specs_below|]. intros s. apply below_refl.
Qed.

Definition outcome_below (o o' : outcome) : Prop := snd o = OutOfFuel \/ o' = o.

Lemma for_modules_below : forall f f' l w, (forall m, below (f m) (f' m)) -> outcome_below (for_modules f l w) (for_modules f' l w).
Proof.
  intros f f' l w H. revert w. induction l as [|m l IH]; intros w; cbn [for_modules]; [right; reflexivity|].
  destruct (H m) as [E|E]; rewrite E; [left; reflexivity|]. destruct (f m); [apply IH|right; reflexivity|left; reflexivity].
Qed.

Lemma generate_modules_below : forall b f f', (forall m, below (f m) (f' m)) ->
  outcome_below (generate_modules fuel b f) (generate_modules fuel' b f').
Proof.
  intros b f f' H. unfold generate_modules, get_modules_ordered, create_ordered_import_list.
  destruct (order_loop_below (mkorder (b_modules b) (map bm_name (b_modules b)) (import_names (b_modules b)) [])) as [E|E]; rewrite E; [left; reflexivity|].
  destruct (order_loop fuel _); [apply for_modules_below; exact H|right; reflexivity|left; reflexivity].
Qed.

(** ** COSMOS *)

Lemma recurs_below : forall b n i, below (definitions_recurs fuel b n i) (definitions_recurs fuel' b n i).
Proof.
  revert fuel' L. induction fuel as [|f IH]; intros f' Lf b n i; [left; reflexivity|]. destruct f' as [|f']; [lia|].
  cbn [definitions_recurs]. apply below_bind; [|intros; apply below_refl]. apply below_map_result. intros x. apply IH. lia.
Qed.

Lemma member_info_below : forall b i t, below (member_info fuel b i t) (member_info fuel' b i t).
Proof.
  intros b i t. unfold member_info.
  assert (G : forall n, below (get_definition fuel b n i) (get_definition fuel' b n i)).
  { intros n. unfold get_definition. apply below_bind; [apply recurs_below|]. intros. apply below_refl. }
  repeat first [apply G | step].
Qed.
End More.

Lemma go_below : forall f f' fuel fuel' b root mi di wc, (fuel <= fuel')%nat -> (forall d w st, below (f d w st) (f' d w st)) ->
  forall l k st, below (go_members f fuel b root mi di wc k l st) (go_members f' fuel' b root mi di wc k l st).
Proof.
  intros f f' fuel fuel' b root mi di wc L H. induction l as [|m l IH]; intros k st; cbn [go_members]; [apply below_refl|].
  destruct (hand_down st mi di k m (given_value wc (m_key m))) as [down st1].
  apply below_bind; [apply member_info_below; exact L|]. intros info. apply below_bind.
  - destruct info; [apply H|apply below_refl].
  - intros [es st2]. apply below_bind; [apply IH|]. intros. apply below_refl.
Qed.

Lemma items_below : forall fuel fuel', (fuel <= fuel')%nat -> forall b root d wc st,
  below (items_of fuel b root d wc st) (items_of fuel' b root d wc st).
Proof.
  induction fuel as [|f IH]; intros f' Lf b root d wc st; [left; reflexivity|]. destruct f' as [|f']; [lia|].
  destruct (dr_def d) as [n c l|n c l|n c l|n t c] eqn:E; try (cbn [items_of]; rewrite E; apply below_refl).
  rewrite !(items_of_sequence _ _ _ _ _ _ _ _ _ E). apply go_below; [lia|]. intros. apply IH. lia.
Qed.

Lemma packets_below : forall fuel fuel', (fuel <= fuel')%nat -> forall b i l st, below (packets fuel b i l st) (packets fuel' b i l st).
Proof.
  intros fuel fuel' L b i. induction l as [|n l IH]; intros st; cbn [packets]; [apply below_refl|].
  destruct (dict_get n _) as [d|]; [|apply below_refl]. apply below_bind; [apply items_below; exact L|].
  intros [es st']. apply below_bind; [apply IH|]. intros. apply below_refl.
Qed.

Lemma generate_cosmos_below : forall fuel fuel', (fuel <= fuel')%nat -> forall b m msgs t,
  below (generate_cosmos fuel b m msgs t) (generate_cosmos fuel' b m msgs t).
Proof.
  intros fuel fuel' L b m msgs t. unfold generate_cosmos. apply below_bind; [|intros; apply below_refl]. unfold cosmos_packets.
  apply below_bind; [apply below_refl|]. intros bm. apply below_bind; [apply below_refl|]. intros _.
  destruct (index_of m 0 (b_modules b)); [apply packets_below; exact L|apply below_refl].
Qed.

(** ** Runs *)

Lemma run_more : forall fuel fuel' cmd input fs, (fuel <= fuel')%nat -> snd (run fuel cmd input fs) <> OutOfFuel ->
  run fuel' cmd input fs = run fuel cmd input fs.
Proof.
  intros fuel fuel' cmd input fs L N.
  assert (W : forall o o', outcome_below o o' -> snd (write_outcome fs o) <> OutOfFuel -> write_outcome fs o' = write_outcome fs o).
  { intros o o' [E| ->] X; [|reflexivity]. exfalso. apply X. exact E. }
  destruct cmd as [m msgs t|names|names|names e]; cbn [run] in *; unfold with_bundle in *.
  - destruct (build_from_cosmos_config input) as [b|e|]; try reflexivity.
    destruct (generate_cosmos_below fuel fuel' L b m msgs t) as [E|E]; [rewrite E in N; exfalso; apply N; reflexivity|rewrite E; reflexivity].
  - destruct (build_from_config names input) as [b|e|]; try reflexivity. apply W; [|exact N].
    apply generate_modules_below; [exact L|]. intros m. apply below_bind; [|intros; apply below_refl].
    apply module_cdata_below; [exact L|]. intros. apply below_refl.
  - destruct (build_from_config names input) as [b|e|]; try reflexivity. apply W; [|exact N].
    apply generate_modules_below; [exact L|]. intros m. apply below_bind; [|intros; apply below_refl].
    apply module_cdata_below; [exact L|]. intros. apply below_refl.
  - destruct (build_from_config names input) as [b|x|]; try reflexivity. apply W; [|exact N].
    apply generate_modules_below; [exact L|]. intros m. apply below_bind; [|intros; apply below_refl].
    apply module_cdata_below; [exact L|]. intros. apply bin_clause_below. exact L.
Qed.
