(** * Proofs about bundles *)
From Coq Require Import ZifyBool ZifyNat ZifyN.
From Verif Require Import Base PyNum PyStr Ast Size Processor Bundle Lib_proofs
  Spec_Enum Spec_Num Spec_Check Spec_Grammar Spec_Bundle Num_proofs Enum_proofs Check_proofs.
Open Scope list_scope.

(** ** Building *)

Lemma attach_imports_mods : forall ms l i, map bm_mod (attach_imports ms i l) = l.
Proof. intros ms l. induction l as [|m r IH]; intros i; simpl; [reflexivity|]. rewrite IH. reflexivity. Qed.

Lemma attach_imports_nth : forall ms l i k,
  nth_error (attach_imports ms i l) k =
  option_map (fun m => mkbmodule m (imported_of ms (i + k) m)) (nth_error l k).
Proof.
  intros ms l. induction l as [|m r IH]; intros i k; destruct k; simpl; try reflexivity.
  - rewrite Nat.add_0_r. reflexivity.
  - rewrite IH. replace (S i + k)%nat with (i + S k)%nat by lia. reflexivity.
Qed.

Lemma last_index_from_some : forall n l i j,
  last_index_from i n l = Some j ->
  exists k m, j = (i + k)%nat /\ nth_error l k = Some m /\ mod_name m = n.
Proof.
  intros n l. induction l as [|m r IH]; intros i j H; simpl in H; [discriminate|].
  destruct (last_index_from (S i) n r) as [j'|] eqn:E.
  - injection H as <-. destruct (IH _ _ E) as (k & x & Hk & Hn & Hm).
    exists (S k), x. simpl. split; [lia | auto].
  - destruct (String.eqb n (mod_name m)) eqn:En; [|discriminate].
    injection H as <-. apply String.eqb_eq in En. exists 0%nat, m. simpl. split; [lia|auto].
Qed.

Lemma last_index_from_none : forall n l i,
  last_index_from i n l = None <-> ~ In n (map mod_name l).
Proof.
  intros n l. induction l as [|m r IH]; intros i; simpl; [tauto|].
  destruct (last_index_from (S i) n r) as [j|] eqn:E.
  - split; [discriminate|]. intros H. exfalso. apply H. right.
    apply last_index_from_some in E. destruct E as (k & x & _ & Hn & <-).
    apply in_map. eapply nth_error_In. exact Hn.
  - apply IH in E. destruct (String.eqb n (mod_name m)) eqn:En.
    + apply String.eqb_eq in En. split; [discriminate|]. intros H. exfalso. apply H. auto.
    + apply String.eqb_neq in En. split; [|reflexivity]. intros _ [H|H]; [congruence|]. tauto.
Qed.

Lemma last_index_some : forall n l j,
  last_index n l = Some j -> exists m, nth_error l j = Some m /\ mod_name m = n.
Proof.
  intros n l j H. apply last_index_from_some in H. destruct H as (k & m & -> & H). exists m. exact H.
Qed.

Lemma last_index_In : forall n l, In n (map mod_name l) -> exists j, last_index n l = Some j.
Proof.
  intros n l H. destruct (last_index n l) as [j|] eqn:E; [exists j; reflexivity|].
  apply last_index_from_none in E. contradiction.
Qed.

Lemma NoDup_nth_error_map : forall A B (f : A -> B) l i j x y,
  NoDup (map f l) -> nth_error l i = Some x -> nth_error l j = Some y -> f x = f y -> i = j.
Proof.
  intros A B f l i j x y Hn Hi Hj Hf.
  assert (Hi' : nth_error (map f l) i = Some (f x)) by (rewrite nth_error_map, Hi; reflexivity).
  assert (Hj' : nth_error (map f l) j = Some (f y)) by (rewrite nth_error_map, Hj; reflexivity).
  rewrite NoDup_nth_error in Hn. apply Hn.
  - rewrite <- nth_error_Some. congruence.
  - congruence.
Qed.

Lemma last_index_unique : forall l j m,
  NoDup (map mod_name l) -> nth_error l j = Some m -> last_index (mod_name m) l = Some j.
Proof.
  intros l j m Hn Hj.
  destruct (last_index_In (mod_name m) l) as (j' & Hj').
  { apply in_map. eapply nth_error_In. exact Hj. }
  rewrite Hj'. apply last_index_some in Hj'. destruct Hj' as (m' & Hj' & E).
  f_equal. apply (NoDup_nth_error_map _ _ mod_name l j' j m' m); auto.
Qed.

Lemma check_dependencies_ok : forall ms,
  check_dependencies ms = Ok tt <->
  (forall i m, nth_error ms i = Some m -> last_index (mod_name m) ms = Some i ->
     incl (dependencies m) (map mod_name ms)).
Proof.
  intros ms. unfold check_dependencies. rewrite for_each_ok_in. split.
  - intros H i m Hi Hl.
    assert (Hin : In (mod_name m) (dedup (map mod_name ms))).
    { apply dedup_In. apply in_map. eapply nth_error_In. exact Hi. }
    specialize (H _ Hin). rewrite Hl, Hi in H. apply assert_ok in H. apply set_diff_nil in H. exact H.
  - intros H n Hn. apply dedup_In in Hn. destruct (last_index n ms) as [i|] eqn:E; [|reflexivity].
    destruct (last_index_some _ _ _ E) as (m & Hm & En). rewrite Hm. apply assert_ok, set_diff_nil.
    apply (H i m Hm). rewrite En. exact E.
Qed.

Lemma check_dependencies_nodup : forall ms,
  NoDup (map mod_name ms) ->
  (check_dependencies ms = Ok tt <->
   forall m, In m ms -> incl (dependencies m) (map mod_name ms)).
Proof.
  intros ms Hn. rewrite check_dependencies_ok. split.
  - intros H m Hm. apply In_nth_error in Hm. destruct Hm as (i & Hi).
    apply (H i m Hi). apply last_index_unique; assumption.
  - intros H i m Hi _. apply H. eapply nth_error_In. exact Hi.
Qed.

(** The list of imported modules of a module in a bundle with unique module
    names: position j is in it iff module j is imported. *)
Lemma imported_of_In : forall ms i m j,
  NoDup (map mod_name ms) -> nth_error ms i = Some m ->
  (In j (imported_of ms i m) <->
   exists im, nth_error ms j = Some im /\ In (mod_name im) (dependencies m)).
Proof.
  intros ms i m j Hn Hi. unfold imported_of.
  rewrite (last_index_unique ms i m Hn Hi), Nat.eqb_refl, in_flat_map. split.
  - intros (n & Hd & Hj). destruct (last_index n ms) as [k|] eqn:E; [|destruct Hj].
    destruct Hj as [<-|[]]. destruct (last_index_some _ _ _ E) as (im & Him & <-).
    exists im. auto.
  - intros (im & Him & Hd). exists (mod_name im). split; [exact Hd|].
    rewrite (last_index_unique ms j im Hn Him). left. reflexivity.
Qed.

Lemma build_modules : forall ms b, build ms = Ok b -> all_modules b = ms.
Proof. intros ms b H. unfold build in H. inv_ok. unfold all_modules. simpl. apply attach_imports_mods. Qed.

Lemma build_nth : forall ms b i,
  build ms = Ok b ->
  nth_error (b_modules b) i =
  option_map (fun m => mkbmodule m (imported_of ms i m)) (nth_error ms i).
Proof.
  intros ms b i H. unfold build in H. inv_ok. simpl. rewrite attach_imports_nth. reflexivity.
Qed.

(** ** Imported names *)

Lemma check_imports_ok : forall b,
  check_imports b = Ok tt <->
  (forall bm i im, In bm (b_modules b) -> In i (bm_imported bm) ->
     nth_error (b_modules b) i = Some im ->
     forall it, In it (mod_imports (bm_mod bm)) -> imp_module it = bm_name im ->
       incl (imp_names it) (defined_names (bm_mod im))).
Proof.
  intros b. unfold check_imports. rewrite for_each_ok_in.
  assert (G : forall bm im,
    assert (is_nil (set_diff
      (flatten (map imp_names (filter (fun it => String.eqb (imp_module it) (bm_name im))
                                      (mod_imports (bm_mod bm)))))
      (map def_name (mod_defs (bm_mod im))))) ConsistencyError = Ok tt <->
    forall it, In it (mod_imports (bm_mod bm)) -> imp_module it = bm_name im ->
       incl (imp_names it) (defined_names (bm_mod im))).
  { intros bm im. rewrite assert_ok, set_diff_nil. unfold flatten. split.
    - intros H it Hit En x Hx. apply H. apply in_concat. exists (imp_names it).
      split; [|exact Hx]. apply in_map. apply filter_In. split; [exact Hit|].
      rewrite En. apply String.eqb_refl.
    - intros H x Hx. apply in_concat in Hx. destruct Hx as (l & Hl & Hx).
      apply in_map_iff in Hl. destruct Hl as (it & <- & Hit). apply filter_In in Hit.
      destruct Hit as [Hit En]. apply String.eqb_eq in En. exact (H it Hit En x Hx). }
  split.
  - intros H bm i im Hbm Hi Him. specialize (H bm Hbm). rewrite for_each_ok_in in H.
    specialize (H i Hi). rewrite Him in H. exact (proj1 (G bm im) H).
  - intros H bm Hbm. apply for_each_ok_in. intros i Hi.
    destruct (nth_error (b_modules b) i) as [im|] eqn:Him; [|reflexivity].
    exact (proj2 (G bm im) (H bm i im Hbm Hi Him)).
Qed.

Lemma imports_ok : forall ms b,
  NoDup (map mod_name ms) -> build ms = Ok b ->
  (check_imports b = Ok tt <-> imports_resolve ms).
Proof.
  intros ms b Hn Hb. rewrite check_imports_ok. unfold imports_resolve.
  assert (Hdep : forall m, In m ms -> incl (dependencies m) (map mod_name ms)).
  { assert (Hb' := Hb). unfold build in Hb'. inv_ok.
    apply check_dependencies_nodup; assumption. }
  split.
  - intros H m it Hm Hit.
    assert (Hd : In (imp_module it) (dependencies m)) by (apply in_map; exact Hit).
    assert (Hin := Hdep m Hm _ Hd). apply in_map_iff in Hin. destruct Hin as (im & En & Him).
    exists im. split; [exact Him|]. split; [exact En|].
    apply In_nth_error in Hm. destruct Hm as (i & Hi).
    apply In_nth_error in Him. destruct Him as (j & Hj).
    apply (H (mkbmodule m (imported_of ms i m)) j (mkbmodule im (imported_of ms j im))).
    + apply nth_error_In with i. rewrite (build_nth ms b i Hb), Hi. reflexivity.
    + simpl. apply imported_of_In; auto. exists im. rewrite En. auto.
    + rewrite (build_nth ms b j Hb), Hj. reflexivity.
    + exact Hit.
    + symmetry. exact En.
  - intros H bm i im Hbm Hi Him it Hit En.
    apply In_nth_error in Hbm. destruct Hbm as (k & Hk).
    rewrite (build_nth ms b k Hb) in Hk. destruct (nth_error ms k) as [m|] eqn:Em; [|discriminate].
    injection Hk as <-. simpl in *.
    rewrite (build_nth ms b i Hb) in Him. destruct (nth_error ms i) as [im'|] eqn:Eim; [|discriminate].
    injection Him as <-. simpl in *.
    destruct (H m it (nth_error_In _ _ Em) Hit) as (im2 & Him2 & En2 & Hincl).
    apply In_nth_error in Him2. destruct Him2 as (j & Hj).
    assert (i = j).
    { apply (NoDup_nth_error_map _ _ mod_name ms i j im' im2); auto.
      unfold bm_name in En. simpl in En. congruence. }
    subst j. assert (im2 = im') by congruence. subst. exact Hincl.
Qed.

(** ** Duplicates *)

Lemma check_duplicates_ok : forall l seen,
  check_duplicates seen l = Ok tt <->
  NoDup (map def_name l) /\ (forall d, In d l -> ~ In (def_name d) seen).
Proof.
  induction l as [|d r IH]; intros seen; simpl.
  - split; [intros _; split; [constructor | tauto] | reflexivity].
  - destruct (mem (def_name d) seen) eqn:E.
    + apply mem_In in E. split; [discriminate|]. intros [_ H]. exfalso. apply (H d); auto.
    + apply mem_not_In in E. rewrite IH. split.
      * intros [Hn Hs]. split.
        -- constructor; [|exact Hn]. intros Hin. apply in_map_iff in Hin.
           destruct Hin as (x & Hx & Hin). apply (Hs x Hin). left. congruence.
        -- intros x [<-|Hx]; [exact E|]. intros Hin. apply (Hs x Hx). right. exact Hin.
      * intros [Hn Hs]. inversion Hn as [|? ? Hd Hr]; subst. split; [exact Hr|].
        intros x Hx [Hin|Hin].
        -- apply Hd. rewrite Hin. apply in_map. exact Hx.
        -- apply (Hs x); auto.
Qed.

Lemma count_In : forall s l, (1 <= count s l)%nat <-> In s l.
Proof.
  intros s l. unfold count. induction l as [|x r IH]; simpl; [lia|].
  destruct (String.eqb s x) eqn:E; simpl.
  - apply String.eqb_eq in E. subst. split; [auto | lia].
  - apply String.eqb_neq in E. rewrite IH. intuition congruence.
Qed.

Lemma count_NoDup : forall l, (forall s, In s l -> (count s l <= 1)%nat) <-> NoDup l.
Proof.
  induction l as [|x r IH]; [split; [constructor | simpl; tauto]|].
  assert (Hx : count x (x :: r) = S (count x r)).
  { unfold count. simpl. rewrite String.eqb_refl. reflexivity. }
  assert (Hs : forall s, (count s r <= count s (x :: r))%nat).
  { intros s. unfold count. simpl. destruct (String.eqb s x); simpl; lia. }
  split.
  - intros H. constructor.
    + intros Hin. apply count_In in Hin. specialize (H x (or_introl eq_refl)). lia.
    + apply IH. intros s Hin. specialize (H s (or_intror Hin)). specialize (Hs s). lia.
  - intros H s Hin. inversion H as [|? ? Hn Hr]; subst. destruct Hin as [<-|Hin].
    + rewrite Hx. assert (~ (1 <= count x r)%nat) by (rewrite count_In; exact Hn). lia.
    + assert (E : String.eqb s x = false).
      { apply String.eqb_neq. intros ->. contradiction. }
      unfold count. simpl. rewrite E. fold (count s r). apply IH; assumption.
Qed.

Lemma duplicates_nil : forall l, is_nil (duplicates l) = true <-> NoDup l.
Proof.
  intros l. rewrite is_nil_true, <- count_NoDup. unfold duplicates. split.
  - intros H s Hs. destruct (Nat.ltb 1 (count s l)) eqn:E; [|apply Nat.ltb_ge in E; lia].
    assert (Hin : In s (filter (fun n => Nat.ltb 1 (count n l)) l)) by (apply filter_In; auto).
    rewrite H in Hin. destruct Hin.
  - intros H. apply filter_false_nil. intros s Hs. apply Nat.ltb_ge. apply H. exact Hs.
Qed.

(** ** Clauses *)

Lemma sequences_named_In : forall ds n s,
  In s (sequences_named (filter is_sequence ds) n) <->
  exists c ms, s = DSequence n c ms /\ In s ds.
Proof.
  intros ds n s. unfold sequences_named. rewrite !filter_In. split.
  - intros [[H Hs] En]. destruct s as [n' c ms|n' c ms|n' c ms|n' t c]; try discriminate Hs.
    apply String.eqb_eq in En. simpl in En. subst. exists c, ms. auto.
  - intros (c & ms & -> & H). simpl. rewrite String.eqb_refl. auto.
Qed.

Lemma NoDup_filter_name : forall ds n,
  NoDup (map def_name ds) ->
  sequences_named (filter is_sequence ds) n = [] \/
  exists s, sequences_named (filter is_sequence ds) n = [s].
Proof.
  intros ds n. induction ds as [|d r IH]; simpl; intros H; [left; reflexivity|].
  inversion H as [|? ? Hd Hr]; subst. specialize (IH Hr).
  destruct (is_sequence d); [|exact IH].
  unfold sequences_named in *. simpl. destruct (String.eqb (def_name d) n) eqn:E; [|exact IH].
  right. destruct IH as [IH|(s & IH)]; [rewrite IH; exists d; reflexivity|].
  exfalso. apply Hd. apply String.eqb_eq in E. rewrite E.
  assert (Hin : In s (filter (fun s => String.eqb (def_name s) n) (filter is_sequence r)))
    by (rewrite IH; left; reflexivity).
  apply filter_In in Hin. destruct Hin as [Hin En]. apply filter_In in Hin.
  apply String.eqb_eq in En. rewrite <- En. apply in_map. tauto.
Qed.

Lemma find_first_member : forall k l,
  match find (fun m => String.eqb (m_key m) k) l with
  | Some x => first_member k l x
  | None => ~ In k (map m_key l)
  end.
Proof.
  intros k l. induction l as [|y r IH]; simpl; [tauto|].
  destruct (String.eqb (m_key y) k) eqn:E.
  - apply String.eqb_eq in E. exists [], r. simpl. auto.
  - apply String.eqb_neq in E. destruct (find _ r) as [x|].
    + destruct IH as (a & b & -> & Hk & Hn). exists (y :: a), b. simpl. intuition.
    + intuition.
Qed.

Lemma first_member_unique : forall k l x y,
  first_member k l x -> first_member k l y -> x = y.
Proof.
  intros k l x y (a & b & E & Hx & Ha) (a' & b' & E' & Hy & Ha'). subst l.
  revert a' E' Ha'. induction a as [|z a IH]; intros [|z' a'] E' Ha'; simpl in *.
  - congruence.
  - injection E' as -> ->. exfalso. apply Ha'. left. exact Hx.
  - injection E' as -> E'. exfalso. apply Ha. left. exact Hy.
  - injection E' as -> E'. apply (IH ltac:(tauto) a' E'). tauto.
Qed.

Lemma first_member_find : forall k l x,
  first_member k l x -> find (fun m => String.eqb (m_key m) k) l = Some x.
Proof.
  intros k l x H. assert (G := find_first_member k l).
  destruct (find _ l) as [y|].
  - f_equal. eapply first_member_unique; eassumption.
  - exfalso. destruct H as (a & b & -> & Hk & _). apply G. rewrite map_app, in_app_iff.
    right. left. exact Hk.
Qed.

Lemma first_member_In : forall k l x, first_member k l x -> In x l /\ m_key x = k.
Proof.
  intros k l x (a & b & -> & Hk & _). split; [|exact Hk]. apply in_app_iff. right. left. reflexivity.
Qed.

Definition check_items (seqs : list definition) (ms : list member) (l : list witem) : result unit :=
  for_each (fun i => match i with WI k v _ =>
    let* _ := assert (mem k (map m_key ms)) ConsistencyError in
    match v with
    | VWith w' =>
        match find (fun m => String.eqb (m_key m) k) ms with
        | Some m => check_wcomps seqs (type_name (m_type m)) w'
        | None => Err IndexErr
        end
    | _ => Ok tt
    end end) l.

Lemma bind_assoc : forall A B C (r : result A) (f : A -> result B) (g : B -> result C),
  bind (bind r f) g = bind r (fun x => bind (f x) g).
Proof. intros A B C [a|e|] f g; reflexivity. Qed.

Lemma check_wcomps_eq : forall seqs n c l,
  check_wcomps seqs n (WC c l) =
  match sequences_named seqs n with
  | [s] => check_items seqs (seq_children s) l
  | _ => assert (mem n PREDEFINED_LIST) ConsistencyError
  end.
Proof.
  intros seqs n c l. cbn [check_wcomps].
  destruct (sequences_named seqs n) as [|s [|s2 r]]; try reflexivity.
  unfold check_items. induction l as [|[k v kc] r IH]; [reflexivity|].
  cbn [for_each]. rewrite <- IH. rewrite bind_assoc. reflexivity.
Qed.

Lemma member_type_builtin : forall t,
  type_ok t = true -> element t <> TNull ->
  (In (type_name t) PREDEFINED_LIST <-> ~ is_type_name (element t)).
Proof.
  intros t Ht Hn. destruct (type_name_known t [] Ht Hn) as [G1 G2].
  rewrite app_nil_r in G1, G2. split.
  - intros H (n & E). exact (G1 H n E).
  - intros H. apply G2. intros n E. apply H. exists n. exact E.
Qed.

Lemma element_name : forall t n, element t = TName n -> type_name t = n.
Proof. induction t; simpl; intros n0 H; try discriminate; [auto | congruence]. Qed.

Lemma sequence_type : forall t c n ms ds,
  type_ok t = true -> In (DSequence n c ms) ds -> (forall d, In d ds -> is_name_capital (def_name d) = true) ->
  type_name t = n -> element t = TName n.
Proof.
  intros t c n ms ds Ht Hin Hds E.
  assert (Hn : is_name_capital n = true) by exact (Hds _ Hin).
  assert (Hk := capital_not_keyword n Hn).
  induction t as [r|r| | |k len|len t IH|n']; simpl in *;
    try (exfalso; apply Hk; subst n; simpl; tauto).
  - exfalso. apply Hk. subst n. destruct k; simpl; tauto.
  - apply IH; assumption.
  - congruence.
Qed.

Section Clauses.
  Variable ds : list definition.
  Hypothesis Hnames : NoDup (map def_name ds).
  Hypothesis Hcap : forall d, In d ds -> is_name_capital (def_name d) = true.
  Hypothesis Htypes : forall n c ms k, In (DSequence n c ms) ds -> In k ms ->
    type_ok (m_type k) = true /\ element (m_type k) <> TNull.

  Lemma check_wcomps_ok : forall w t,
    type_ok t = true -> element t <> TNull ->
    (check_wcomps (filter is_sequence ds) (type_name t) w = Ok tt <-> clause_valid ds t w).
  Proof.
    apply (clause_ind (fun w => forall t,
      type_ok t = true -> element t <> TNull ->
      (check_wcomps (filter is_sequence ds) (type_name t) w = Ok tt <-> clause_valid ds t w))).
    intros cm l IH t Ht Hnull. rewrite check_wcomps_eq.
    assert (Hseq := sequences_named_In ds (type_name t)).
    destruct (NoDup_filter_name ds (type_name t) Hnames) as [E|(s & E)]; rewrite E in *.
    - rewrite assert_ok, mem_In, (member_type_builtin t Ht Hnull). split.
      + intros H. apply clause_on_builtin. exact H.
      + intros H. inversion H as [t' n c ms cm' l' He Hin Hl|]; subst; [|assumption].
        exfalso. rewrite (element_name t n He) in Hseq.
        destruct (Hseq (DSequence n c ms)) as [_ G]. apply G. exists c, ms. auto.
    - destruct (Hseq s) as [G _]. destruct (G (or_introl eq_refl)) as (c & ms & -> & Hin).
      clear G. simpl seq_children.
      assert (He : element t = TName (type_name t)) by exact (sequence_type t c _ ms ds Ht Hin Hcap eq_refl).
      assert (Hitems : check_items (filter is_sequence ds) ms l = Ok tt <->
        (forall k v kc, In (WI k v kc) l ->
           exists x, first_member k ms x /\ forall w, v = VWith w -> clause_valid ds (m_type x) w)).
      { unfold check_items. rewrite for_each_ok_in. split.
        - intros H k v kc Hi. specialize (H _ Hi). cbv beta iota in H.
          apply bind_unit_ok in H. destruct H as [Hk Hv]. apply assert_ok, mem_In in Hk.
          assert (Hf := find_first_member k ms).
          destruct (find (fun m => String.eqb (m_key m) k) ms) as [x|] eqn:Ef; [|contradiction].
          exists x. split; [exact Hf|]. intros w ->.
          destruct (first_member_In _ _ _ Hf) as [Hx _].
          destruct (Htypes _ _ _ _ Hin Hx) as [Hx1 Hx2].
          apply (IH k w kc Hi (m_type x) Hx1 Hx2). exact Hv.
        - intros H [k v kc] Hi. destruct (H k v kc Hi) as (x & Hf & Hv).
          apply bind_unit_ok. destruct (first_member_In _ _ _ Hf) as [Hx Ek]. split.
          + apply assert_ok, mem_In. rewrite <- Ek. apply in_map. exact Hx.
          + destruct v as [z|f|b|w]; try reflexivity.
            rewrite (first_member_find _ _ _ Hf).
            destruct (Htypes _ _ _ _ Hin Hx) as [Hx1 Hx2].
            apply (IH k w kc Hi (m_type x) Hx1 Hx2). apply Hv. reflexivity. }
      rewrite Hitems. split.
      + intros H. eapply clause_on_sequence; eassumption.
      + intros H. inversion H as [t' n' c' ms' cm' l' He' Hin' Hl|t' w' Hb]; subst.
        * assert (n' = type_name t) by congruence. subst n'.
          assert (Heq : DSequence (type_name t) c' ms' = DSequence (type_name t) c ms).
          { destruct (Hseq (DSequence (type_name t) c' ms')) as [_ G].
            destruct G as [G|[]]; [exists c', ms'; auto|]. symmetry. exact G. }
          injection Heq as -> ->. exact Hl.
        * exfalso. apply Hb. exists (type_name t). exact He.
  Qed.

  Lemma check_components_ok :
    check_used_components_defined ds = Ok tt <-> clauses_valid ds.
  Proof.
    unfold check_used_components_defined, clauses_valid. rewrite for_each_ok_in. split.
    - intros H n c ms k w Hin Hk Hw. specialize (H _ Hin). simpl in H.
      rewrite for_each_ok_in in H. specialize (H k Hk). rewrite Hw in H.
      destruct (Htypes _ _ _ _ Hin Hk) as [H1 H2]. apply check_wcomps_ok in H; assumption.
    - intros H d Hd. apply for_each_ok_in. intros k Hk.
      destruct (m_with k) as [w|] eqn:Hw; [|reflexivity].
      destruct d as [n c ms|n c ms|n c ms|n t c]; simpl in Hk; try (destruct Hk; fail).
      destruct (Htypes _ _ _ _ Hd Hk) as [H1 H2]. apply check_wcomps_ok; [assumption..|].
      exact (H n c ms k w Hd Hk Hw).
  Qed.
End Clauses.

(** ** From the text to the parsed modules *)

Lemma parse_module_same : forall m m', parse_module m = Ok m' -> same_module m m'.
Proof.
  intros m m' H. assert (G := parse_module_enums m m' H).
  unfold parse_module in H. inv_ok. unfold same_module. cbn [mod_name mod_comment mod_imports].
  split; [reflexivity|]. split; [split; reflexivity|]. split; [reflexivity|].
  eapply Forall2_impl; [|exact G]. intros d d' Hd. destruct d; exact Hd.
Qed.

Lemma parse_modules_same : forall input ms,
  parse_modules input = Ok ms -> Forall2 same_module input ms.
Proof.
  intros input ms H. apply map_result_ok in H.
  eapply Forall2_impl; [|exact H]. intros m m'. apply parse_module_same.
Qed.

Lemma same_definition_name : forall d d', same_definition d d' -> def_name d' = def_name d.
Proof. intros [n c l|n c l|n c l|n t c] d' H; simpl in H; try (subst; reflexivity).
  destruct H as (l' & -> & _). reflexivity. Qed.

Lemma same_module_names : forall input ms,
  Forall2 same_module input ms -> map mod_name ms = map mod_name input.
Proof.
  intros input ms H. induction H as [|m m' l l' (Hm & _) _ IH]; simpl; [reflexivity|]. congruence.
Qed.

Lemma same_defined_names : forall m m', same_module m m' -> defined_names m' = defined_names m.
Proof.
  intros m m' (_ & _ & _ & H). unfold defined_names.
  induction H as [|d d' l l' Hd _ IH]; simpl; [reflexivity|].
  rewrite (same_definition_name _ _ Hd), IH. reflexivity.
Qed.

Lemma Forall2_flat_map : forall A B C D (R : A -> B -> Prop) (S : C -> D -> Prop) f g l l',
  Forall2 R l l' -> (forall x y, R x y -> Forall2 S (f x) (g y)) ->
  Forall2 S (flat_map f l) (flat_map g l').
Proof.
  intros A B C D R S f g l l' H Hfg. induction H; simpl; [constructor|].
  apply Forall2_app; auto.
Qed.

Lemma same_definitions : forall input ms,
  Forall2 same_module input ms -> Forall2 same_definition (definitions input) (definitions ms).
Proof.
  intros input ms H. unfold definitions. eapply Forall2_flat_map; [exact H|].
  intros m m' (_ & _ & _ & G). exact G.
Qed.

Lemma same_definitions_names : forall ds ds',
  Forall2 same_definition ds ds' -> map def_name ds' = map def_name ds.
Proof.
  intros ds ds' H. induction H as [|d d' l l' Hd _ IH]; simpl; [reflexivity|].
  rewrite (same_definition_name _ _ Hd), IH. reflexivity.
Qed.

Lemma same_sequences : forall ds ds' n c l,
  Forall2 same_definition ds ds' -> (In (DSequence n c l) ds' <-> In (DSequence n c l) ds).
Proof.
  intros ds ds' n c l H. split; intros Hin.
  - destruct (Forall2_in_r _ _ _ _ _ _ H Hin) as (d & Hd & Hs).
    destruct d; simpl in Hs; try discriminate; try (rewrite Hs; exact Hd).
    destruct Hs as (? & Hs & _). discriminate.
  - destruct (Forall2_in_l _ _ _ _ _ _ H Hin) as (d & Hd & Hs).
    simpl in Hs. subst. exact Hd.
Qed.

Lemma imports_resolve_same : forall input ms,
  Forall2 same_module input ms -> (imports_resolve ms <-> imports_resolve input).
Proof.
  intros input ms H. unfold imports_resolve. split; intros G m it Hm Hit.
  - destruct (Forall2_in_l _ _ _ _ _ _ H Hm) as (m' & Hm' & Hs).
    assert (Hi := Hs). destruct Hi as (_ & _ & Hi & _). rewrite <- Hi in Hit.
    destruct (G m' it Hm' Hit) as (im' & Him' & En & Hincl).
    destruct (Forall2_in_r _ _ _ _ _ _ H Him') as (im & Him & Hs').
    exists im. split; [exact Him|]. rewrite <- (same_defined_names _ _ Hs').
    destruct Hs' as (Hn & _). rewrite <- Hn. auto.
  - destruct (Forall2_in_r _ _ _ _ _ _ H Hm) as (m' & Hm' & Hs).
    assert (Hi := Hs). destruct Hi as (_ & _ & Hi & _). rewrite Hi in Hit.
    destruct (G m' it Hm' Hit) as (im' & Him' & En & Hincl).
    destruct (Forall2_in_l _ _ _ _ _ _ H Him') as (im & Him & Hs').
    exists im. split; [exact Him|]. rewrite (same_defined_names _ _ Hs').
    destruct Hs' as (Hn & _). rewrite Hn. auto.
Qed.

Lemma clause_valid_ext : forall ds ds',
  (forall n c l, In (DSequence n c l) ds -> In (DSequence n c l) ds') ->
  forall w t, clause_valid ds t w -> clause_valid ds' t w.
Proof.
  intros ds ds' H.
  apply (clause_ind (fun w => forall t, clause_valid ds t w -> clause_valid ds' t w)).
  intros cm l IH t Hc. inversion Hc as [t' n c ms cm' l' He Hin Hl|t' w' Hb]; subst.
  - eapply clause_on_sequence; [exact He | apply H; exact Hin |].
    intros k v kc Hi. destruct (Hl k v kc Hi) as (x & Hx & Hw). exists x. split; [exact Hx|].
    intros w ->. apply (IH k w kc Hi). apply Hw. reflexivity.
  - apply clause_on_builtin. exact Hb.
Qed.

Lemma clauses_valid_same : forall ds ds',
  Forall2 same_definition ds ds' -> (clauses_valid ds' <-> clauses_valid ds).
Proof.
  intros ds ds' H. unfold clauses_valid. split; intros G n c l k w Hin Hk Hw.
  - apply (clause_valid_ext ds'); [intros; apply (same_sequences ds ds'); assumption|].
    apply (G n c l k w); try assumption. apply (same_sequences ds ds'); assumption.
  - apply (clause_valid_ext ds); [intros; apply (same_sequences ds ds'); assumption|].
    apply (G n c l k w); try assumption. apply (same_sequences ds ds'); assumption.
Qed.

Lemma parse_modules_iff : forall input,
  Forall (fun m => grammatical m = true) input ->
  ((exists ms, parse_modules input = Ok ms) <-> Forall module_valid input).
Proof.
  intros input Hg. unfold parse_modules. rewrite map_result_exists. apply Forall_iff_in.
  intros m Hm. apply module_accepted_iff. rewrite Forall_forall in Hg. apply Hg. exact Hm.
Qed.

(** Facts about the definitions of grammatical valid modules. *)
Lemma definitions_capital : forall input d,
  Forall (fun m => grammatical m = true) input -> In d (definitions input) ->
  is_name_capital (def_name d) = true.
Proof.
  intros input d Hg Hd. apply in_flat_map in Hd. destruct Hd as (m & Hm & Hd).
  rewrite Forall_forall in Hg. apply (grammatical_defs m d (Hg m Hm)) in Hd.
  destruct d; unfold definition_ok in Hd; repeat (apply andb_prop in Hd; destruct Hd as [Hd ?]);
    assumption.
Qed.

Lemma definitions_types : forall input d k,
  Forall (fun m => grammatical m = true) input -> Forall module_valid input ->
  In d (definitions input) -> In k (members_of d) ->
  type_ok (m_type k) = true /\ ranges_ok (m_type k) /\ element (m_type k) <> TNull.
Proof.
  intros input d k Hg Hv Hd Hk. apply in_flat_map in Hd. destruct Hd as (m & Hm & Hd).
  rewrite Forall_forall in Hg, Hv. rewrite members_of_eq in Hk. split.
  - apply member_ok_type. apply (grammatical_members m d k (Hg m Hm)); assumption.
  - destruct (Hv m Hm) as (_ & Hdv & _). rewrite Forall_forall in Hdv.
    apply (definition_valid_members d k (Hdv d Hd) Hk).
Qed.

Lemma build_iff : forall ms,
  NoDup (map mod_name ms) ->
  ((exists b, build ms = Ok b) <->
   forall m, In m ms -> incl (dependencies m) (map mod_name ms)).
Proof.
  intros ms Hn. rewrite <- check_dependencies_nodup by exact Hn. unfold build. split.
  - intros (b & H). inv_ok. assumption.
  - intros H. rewrite H. simpl. eexists; reflexivity.
Qed.

Lemma check_missing_ok : forall names b,
  check_missing_modules names b = Ok tt <-> same_names names (module_names b).
Proof.
  intros names b. unfold check_missing_modules, same_names.
  rewrite assert_ok, andb_true_iff, !set_diff_nil. tauto.
Qed.

Lemma validate_unique_ok : forall ms names,
  validate_unique_module_names ms names = Ok tt <-> NoDup (map mod_name ms) /\ NoDup names.
Proof.
  intros ms names. unfold validate_unique_module_names.
  rewrite assert_ok, andb_true_iff, !duplicates_nil. tauto.
Qed.

(** Validation of the bundle built from parsed modules. *)
Lemma validate_bundle_ok : forall input ms b,
  Forall (fun m => grammatical m = true) input -> parse_modules input = Ok ms ->
  NoDup (map mod_name input) -> build ms = Ok b ->
  (validate_bundle b = Ok tt <->
   imports_resolve input /\ clauses_valid (definitions input)
   /\ NoDup (map def_name (definitions input))).
Proof.
  intros input ms b Hg Hp Hn Hb.
  assert (Hv : Forall module_valid input) by (apply parse_modules_iff; eauto).
  assert (Hs := parse_modules_same _ _ Hp).
  assert (Hds := same_definitions _ _ Hs).
  assert (Hnm : NoDup (map mod_name ms)) by (rewrite (same_module_names _ _ Hs); exact Hn).
  unfold validate_bundle, check_imported_types_and_components.
  rewrite !bind_unit_ok, (imports_ok ms b Hnm Hb), check_duplicates_ok.
  assert (Ha : all_defs b = definitions ms).
  { unfold all_defs. rewrite (build_modules ms b Hb). reflexivity. }
  rewrite Ha, (imports_resolve_same _ _ Hs), (same_definitions_names _ _ Hds).
  split.
  - intros ((Hi & Hc) & Hd & _). repeat split; try assumption.
    apply (clauses_valid_same _ _ Hds). apply check_components_ok; try assumption.
    + rewrite (same_definitions_names _ _ Hds). exact Hd.
    + intros d Hin. destruct (Forall2_in_r _ _ _ _ _ _ Hds Hin) as (d0 & Hd0 & E).
      rewrite (same_definition_name _ _ E). apply (definitions_capital input); assumption.
    + intros n c l k Hin Hk. apply (same_sequences _ _ n c l Hds) in Hin.
      destruct (definitions_types input (DSequence n c l) k Hg Hv Hin Hk) as (A & _ & B). auto.
  - intros (Hi & Hc & Hd). split; [split; [exact Hi|]|split; [exact Hd | intros d _ []]].
    apply check_components_ok.
    + rewrite (same_definitions_names _ _ Hds). exact Hd.
    + intros d Hin. destruct (Forall2_in_r _ _ _ _ _ _ Hds Hin) as (d0 & Hd0 & E).
      rewrite (same_definition_name _ _ E). apply (definitions_capital input); assumption.
    + intros n c l k Hin Hk. apply (same_sequences _ _ n c l Hds) in Hin.
      destruct (definitions_types input (DSequence n c l) k Hg Hv Hin Hk) as (A & _ & B). auto.
    + apply (clauses_valid_same _ _ Hds). exact Hc.
Qed.

Lemma imports_deps : forall input m,
  imports_resolve input -> In m input -> incl (dependencies m) (map mod_name input).
Proof.
  intros input m H Hm n Hn. unfold dependencies in Hn. apply in_map_iff in Hn.
  destruct Hn as (it & <- & Hit). destruct (H m it Hm Hit) as (im & Him & <- & _).
  apply in_map. exact Him.
Qed.

Theorem bundle_accepted_iff : forall names input,
  Forall (fun m => grammatical m = true) input ->
  ((exists b, build_from_config names input = Ok b) <-> bundle_valid names input).
Proof.
  intros names input Hg. split.
  - intros (b & H). unfold build_from_config in H.
    apply bind_ok in H. destruct H as (ms & Hp & H).
    apply bind_ok in H. destruct H as ([] & Hu & H).
    apply bind_ok in H. destruct H as (b' & Hb & H).
    apply bind_ok in H. destruct H as ([] & Hvb & H).
    apply bind_ok in H. destruct H as ([] & Hmm & H).
    apply validate_unique_ok in Hu. destruct Hu as [Hu1 Hu2].
    assert (Hs := parse_modules_same _ _ Hp). rewrite (same_module_names _ _ Hs) in Hu1.
    destruct (validate_bundle_ok input ms b' Hg Hp Hu1 Hb) as [G _].
    specialize (G Hvb). destruct G as (Hi & Hc & Hd).
    constructor; try assumption.
    + apply parse_modules_iff; eauto.
    + apply check_missing_ok in Hmm. unfold module_names, bm_name in Hmm.
      rewrite <- map_map in Hmm. fold (all_modules b') in Hmm.
      rewrite (build_modules ms b' Hb), (same_module_names _ _ Hs) in Hmm. exact Hmm.
  - intros [Hv Hn Hl Hsame Hi Hc Hd].
    destruct (parse_modules_iff input Hg) as [_ G]. destruct (G Hv) as (ms & Hp). clear G.
    assert (Hs := parse_modules_same _ _ Hp).
    assert (Hnm : NoDup (map mod_name ms)) by (rewrite (same_module_names _ _ Hs); exact Hn).
    unfold build_from_config. rewrite Hp. simpl.
    destruct (validate_unique_ok ms names) as [_ G]. rewrite G by auto. simpl. clear G.
    assert (Hb : exists b, build ms = Ok b).
    { apply build_iff; [exact Hnm|]. intros m Hm.
      rewrite (same_module_names _ _ Hs).
      destruct (Forall2_in_r _ _ _ _ _ _ Hs Hm) as (m0 & Hm0 & E).
      destruct E as (_ & _ & E & _). unfold dependencies. rewrite E.
      apply imports_deps; assumption. }
    destruct Hb as (b & Hb). rewrite Hb. simpl.
    destruct (validate_bundle_ok input ms b Hg Hp Hn Hb) as [_ G]. rewrite G by auto. simpl. clear G.
    destruct (check_missing_ok names b) as [_ G]. rewrite G.
    + simpl. eexists; reflexivity.
    + unfold module_names, bm_name. rewrite <- map_map. fold (all_modules b).
      rewrite (build_modules ms b Hb), (same_module_names _ _ Hs). exact Hsame.
Qed.

(** What an accepted bundle contains. *)
Lemma build_from_config_inv : forall names input b,
  build_from_config names input = Ok b ->
  exists ms, parse_modules input = Ok ms /\ build ms = Ok b /\ all_modules b = ms
    /\ NoDup (map mod_name ms) /\ NoDup names /\ validate_bundle b = Ok tt
    /\ same_names names (module_names b).
Proof.
  intros names input b H. unfold build_from_config in H.
  apply bind_ok in H. destruct H as (ms & Hp & H).
  apply bind_ok in H. destruct H as ([] & Hu & H).
  apply bind_ok in H. destruct H as (b' & Hb & H).
  apply bind_ok in H. destruct H as ([] & Hvb & H).
  apply bind_ok in H. destruct H as ([] & Hmm & H). injection H as <-.
  apply validate_unique_ok in Hu. apply check_missing_ok in Hmm.
  exists ms. split; [exact Hp|]. split; [exact Hb|].
  split; [apply build_modules; exact Hb|]. tauto.
Qed.

Lemma cosmos_accepted_iff : forall input,
  Forall (fun m => grammatical m = true) input -> NoDup (map mod_name input) ->
  ((exists b, build_from_cosmos_config input = Ok b) <->
   Forall module_valid input /\ imports_resolve input /\ clauses_valid (definitions input)
   /\ NoDup (map def_name (definitions input))).
Proof.
  intros input Hg Hn. split.
  - intros (b & H). unfold build_from_cosmos_config in H.
    apply bind_ok in H. destruct H as (ms & Hp & H).
    apply bind_ok in H. destruct H as (b' & Hb & H).
    apply bind_ok in H. destruct H as ([] & Hvb & H).
    destruct (validate_bundle_ok input ms b' Hg Hp Hn Hb) as [G _].
    specialize (G Hvb). split; [apply parse_modules_iff; eauto | exact G].
  - intros (Hv & Hi & Hc & Hd).
    destruct (parse_modules_iff input Hg) as [_ G]. destruct (G Hv) as (ms & Hp). clear G.
    assert (Hs := parse_modules_same _ _ Hp).
    assert (Hnm : NoDup (map mod_name ms)) by (rewrite (same_module_names _ _ Hs); exact Hn).
    unfold build_from_cosmos_config. rewrite Hp. simpl.
    assert (Hb : exists b, build ms = Ok b).
    { apply build_iff; [exact Hnm|]. intros m Hm.
      rewrite (same_module_names _ _ Hs).
      destruct (Forall2_in_r _ _ _ _ _ _ Hs Hm) as (m0 & Hm0 & E).
      destruct E as (_ & _ & E & _). unfold dependencies. rewrite E.
      apply imports_deps; assumption. }
    destruct Hb as (b & Hb). rewrite Hb. simpl.
    destruct (validate_bundle_ok input ms b Hg Hp Hn Hb) as [_ G]. rewrite G by auto. simpl.
    eexists; reflexivity.
Qed.

(** ** Users of a type *)

Lemma add_use_spec : forall s n uses k x,
  uses_of k (add_use s n uses) x <-> (k = s /\ x = n) \/ uses_of k uses x.
Proof.
  intros s n uses k x. unfold uses_of. induction uses as [|[k' v] r IH]; simpl.
  - split.
    + intros (l & [H|[]] & Hx). injection H as <- <-. destruct Hx as [Hx|[]]. auto.
    + intros [[-> ->]|(l & [] & _)]. exists [n]. simpl. auto.
  - destruct (String.eqb s k') eqn:E.
    + apply String.eqb_eq in E. subst k'.
      assert (Hv : forall y, In y (if mem n v then v else v ++ [n]) <-> y = n \/ In y v).
      { intros y. destruct (mem n v) eqn:Em.
        - apply mem_In in Em. split; [auto | intros [->|]; auto].
        - rewrite in_app_iff. simpl. intuition. }
      simpl. split.
      * intros (l & [H|H] & Hx).
        -- injection H as <- <-. apply Hv in Hx. destruct Hx as [->|Hx]; [auto|].
           right. exists v. tauto.
        -- right. exists l. tauto.
      * intros [[-> ->]|(l & [H|H] & Hx)].
        -- eexists. split; [left; reflexivity|]. apply Hv. auto.
        -- injection H as <- <-. eexists. split; [left; reflexivity|]. apply Hv. auto.
        -- exists l. split; [right; exact H | exact Hx].
    + simpl. split.
      * intros (l & [H|H] & Hx).
        -- injection H as <- <-. right. exists v. tauto.
        -- destruct IH as [IH _]. destruct IH as [IH|(l' & H' & Hx')]; [exists l; auto | auto |].
           right. exists l'. tauto.
      * intros [[-> ->]|(l & [H|H] & Hx)].
        -- destruct IH as [_ IH]. destruct IH as (l & H & Hx); [auto|]. exists l. tauto.
        -- injection H as <- <-. exists v. tauto.
        -- destruct IH as [_ IH]. destruct IH as (l' & H' & Hx'); [right; exists l; auto|].
           exists l'. tauto.
Qed.

Lemma add_use_keys : forall s n uses,
  NoDup (map fst uses) ->
  NoDup (map fst (add_use s n uses))
  /\ (forall k, In k (map fst (add_use s n uses)) <-> k = s \/ In k (map fst uses)).
Proof.
  intros s n uses. induction uses as [|[k' v] r IH]; simpl; intros H.
  - split; [repeat constructor; simpl; tauto|]. intros k. intuition.
  - inversion H as [|? ? Hk Hr]; subst. destruct (String.eqb s k') eqn:E; simpl.
    + apply String.eqb_eq in E. subst k'. split; [constructor; assumption|]. intuition.
    + apply String.eqb_neq in E. destruct (IH Hr) as [I1 I2]. split.
      * constructor; [|exact I1]. rewrite I2. intuition.
      * intros k. rewrite I2. intuition.
Qed.

Lemma fold_add_use : forall n ss uses,
  NoDup (map fst uses) ->
  let u := fold_left (fun u s => add_use s n u) ss uses in
  NoDup (map fst u)
  /\ forall k x, uses_of k u x <-> (In k ss /\ x = n) \/ uses_of k uses x.
Proof.
  intros n ss. induction ss as [|s r IH]; intros uses H u.
  - unfold u. simpl. split; [exact H | intuition].
  - unfold u. simpl. destruct (add_use_keys s n uses H) as [Hk _].
    destruct (IH _ Hk) as [I1 I2]. split; [exact I1|].
    intros k x. rewrite I2, add_use_spec. intuition congruence.
Qed.

Definition uses_type_name (m : module) (s : string) : Prop :=
  exists d k, In d (mod_defs m) /\ In k (members_of d) /\ m_with k = None
    /\ type_name (m_type k) = s /\ ~ In s PREDEFINED_LIST.

Lemma parse_for_simple_defs_In : forall m s,
  In s (parse_for_simple_defs m) <-> uses_type_name m s.
Proof.
  intros m s. unfold parse_for_simple_defs, uses_type_name. rewrite in_flat_map. split.
  - intros (d & Hd & H). apply in_flat_map in H. destruct H as (k & Hk & H).
    destruct (m_with k) eqn:Hw; [destruct H|].
    destruct (mem (type_name (m_type k)) PREDEFINED_LIST) eqn:Em; [destruct H|].
    destruct H as [H|[]]. apply mem_not_In in Em. rewrite H in Em.
    exists d, k. rewrite members_of_eq. auto.
  - intros (d & k & Hd & Hk & Hw & Hs & Hn). exists d. split; [exact Hd|].
    apply in_flat_map. exists k. rewrite members_of_eq in Hk. split; [exact Hk|].
    rewrite Hw, Hs. apply mem_not_In in Hn. rewrite Hn. left. reflexivity.
Qed.

Lemma fold_module_uses : forall ms uses,
  NoDup (map fst uses) ->
  let u := fold_left module_uses ms uses in
  NoDup (map fst u)
  /\ forall k x, uses_of k u x <->
       (exists m, In m ms /\ x = mod_name m /\ uses_type_name m k) \/ uses_of k uses x.
Proof.
  induction ms as [|m r IH]; intros uses H u.
  - unfold u. simpl. split; [exact H|]. intros k x. split; [auto|].
    intros [(m & [] & _)|G]; exact G.
  - unfold u. simpl.
    destruct (fold_add_use (mod_name m) (parse_for_simple_defs m) uses H) as [F1 F2].
    destruct (IH _ F1) as [I1 I2]. split; [exact I1|]. intros k x.
    specialize (F2 k x). specialize (I2 k x). unfold module_uses in *.
    rewrite I2, F2, parse_for_simple_defs_In. split.
    + intros [(m' & Hm & Hx & Hu)|[[Hk Hx]|G]].
      * left. exists m'. auto.
      * left. exists m. auto.
      * right. exact G.
    + intros [(m' & [<-|Hm] & Hx & Hu)|G].
      * right. left. auto.
      * left. exists m'. auto.
      * right. right. exact G.
Qed.

Lemma build_uses : forall ms b,
  build ms = Ok b ->
  NoDup (map fst (b_uses b))
  /\ forall s x, uses_of s (b_uses b) x <->
       exists m, In m ms /\ x = mod_name m /\ uses_type_name m s.
Proof.
  intros ms b H. unfold build in H. inv_ok. simpl.
  destruct (fold_module_uses ms [] (NoDup_nil _)) as [F1 F2]. split; [exact F1|].
  intros s x. rewrite F2. split; [|auto]. intros [G|(l & [] & _)]. exact G.
Qed.

Lemma element_known : forall t s,
  type_ok t = true -> element t <> TNull ->
  (type_name t = s /\ ~ In s PREDEFINED_LIST <-> element t = TName s).
Proof.
  intros t s Ht Hn. assert (G := member_type_builtin t Ht Hn). split.
  - intros [<- H]. rewrite G in H.
    destruct (element t) as [r|r| | |k len|len t'|n] eqn:E;
      try (exfalso; apply H; intros (x & Hx); discriminate).
    rewrite (element_name t n E). reflexivity.
  - intros E. assert (En := element_name t s E). split; [exact En|]. rewrite <- En, G.
    intros H. apply H. exists s. exact E.
Qed.

Lemma uses_type_same : forall m m' s,
  grammatical m = true -> parse_module m = Ok m' ->
  (uses_type_name m' s <-> uses_type m s).
Proof.
  intros m m' s Hg Hp.
  assert (Hv : module_valid m) by (apply module_accepted_iff; eauto).
  assert (Hs := parse_module_same m m' Hp). destruct Hs as (_ & _ & _ & Hs).
  assert (Hmem : forall d d', same_definition d d' -> members_of d' = members_of d).
  { intros [n c l|n c l|n c l|n t c] d' H; simpl in H; try (subst; reflexivity).
    destruct H as (l' & -> & _). reflexivity. }
  assert (Hk : forall d k, In d (mod_defs m) -> In k (members_of d) ->
     (type_name (m_type k) = s /\ ~ In s PREDEFINED_LIST <-> element (m_type k) = TName s)).
  { intros d k Hd Hk. rewrite members_of_eq in Hk. apply element_known.
    - apply member_ok_type. apply (grammatical_members m d k Hg); assumption.
    - destruct Hv as (_ & Hdv & _). rewrite Forall_forall in Hdv.
      apply (definition_valid_members d k (Hdv d Hd) Hk). }
  unfold uses_type_name, uses_type. split.
  - intros (d' & k & Hd & Hin & Hw & Ht). destruct (Forall2_in_r _ _ _ _ _ _ Hs Hd) as (d & Hd0 & E).
    rewrite (Hmem _ _ E) in Hin. exists d, k. repeat split; try assumption.
    apply (Hk d k Hd0 Hin). exact Ht.
  - intros (d & k & Hd & Hin & Hw & Ht). destruct (Forall2_in_l _ _ _ _ _ _ Hs Hd) as (d' & Hd0 & E).
    exists d', k. rewrite (Hmem _ _ E). apply (Hk d k Hd Hin) in Ht. tauto.
Qed.

Lemma recorded_users : forall names input b,
  Forall (fun m => grammatical m = true) input -> build_from_config names input = Ok b ->
  NoDup (map fst (b_uses b))
  /\ forall s x, uses_of s (b_uses b) x <->
       exists m, In m input /\ x = mod_name m /\ uses_type m s.
Proof.
  intros names input b Hg H. destruct (build_from_config_inv _ _ _ H) as (ms & Hp & Hb & _).
  destruct (build_uses ms b Hb) as [Hk Hu]. split; [exact Hk|]. intros s x. rewrite Hu.
  apply map_result_ok in Hp. rewrite Forall_forall in Hg. split.
  - intros (m' & Hm' & -> & G). destruct (Forall2_in_r _ _ _ _ _ _ Hp Hm') as (m & Hm & E).
    exists m. split; [exact Hm|]. assert (Hs := parse_module_same m m' E). destruct Hs as (Hn & _).
    split; [exact Hn|]. apply (uses_type_same m m' s (Hg m Hm) E). exact G.
  - intros (m & Hm & -> & G). destruct (Forall2_in_l _ _ _ _ _ _ Hp Hm) as (m' & Hm' & E).
    exists m'. split; [exact Hm'|]. assert (Hs := parse_module_same m m' E). destruct Hs as (Hn & _).
    split; [symmetry; exact Hn|]. apply (uses_type_same m m' s (Hg m Hm) E). exact G.
Qed.

(** ** Consequences, in the form of the property theorems *)

Lemma config_imports : forall names input b m it,
  Forall (fun m => grammatical m = true) input -> build_from_config names input = Ok b ->
  In m input -> In it (mod_imports m) ->
  exists im, In im input /\ mod_name im = imp_module it
    /\ incl (imp_names it) (map def_name (mod_defs im)).
Proof.
  intros names input b m it Hg H Hm Hit.
  assert (V : bundle_valid names input) by (apply bundle_accepted_iff; eauto).
  exact (bv_imports _ _ V m it Hm Hit).
Qed.

Lemma cosmos_imports : forall input b m it,
  Forall (fun m => grammatical m = true) input -> NoDup (map mod_name input) ->
  build_from_cosmos_config input = Ok b ->
  In m input -> In it (mod_imports m) ->
  exists im, In im input /\ mod_name im = imp_module it
    /\ incl (imp_names it) (map def_name (mod_defs im)).
Proof.
  intros input b m it Hg Hn H Hm Hit.
  destruct (proj1 (cosmos_accepted_iff input Hg Hn)) as (_ & G & _); [eauto|].
  exact (G m it Hm Hit).
Qed.

Lemma cosmos_names : forall input b,
  build_from_cosmos_config input = Ok b -> NoDup (map def_name (definitions input)).
Proof.
  intros input b H. unfold build_from_cosmos_config in H.
  apply bind_ok in H. destruct H as (ms & Hp & H).
  apply bind_ok in H. destruct H as (b' & Hb & H).
  apply bind_ok in H. destruct H as ([] & Hv & _). unfold validate_bundle in Hv.
  apply bind_ok in Hv. destruct Hv as (? & _ & Hv). apply check_duplicates_ok in Hv.
  destruct Hv as [Hv _]. unfold all_defs in Hv. rewrite (build_modules ms b' Hb) in Hv.
  fold (definitions ms) in Hv.
  rewrite (same_definitions_names _ _ (same_definitions _ _ (parse_modules_same _ _ Hp))) in Hv.
  exact Hv.
Qed.

Lemma config_names : forall names input b,
  build_from_config names input = Ok b -> NoDup (map def_name (definitions input)).
Proof.
  intros names input b H. destruct (build_from_config_inv _ _ _ H) as (ms & Hp & Hb & _ & _ & _ & Hv & _).
  unfold validate_bundle in Hv.
  apply bind_ok in Hv. destruct Hv as (? & _ & Hv). apply check_duplicates_ok in Hv.
  destruct Hv as [Hv _]. unfold all_defs in Hv. rewrite (build_modules ms b Hb) in Hv.
  fold (definitions ms) in Hv.
  rewrite (same_definitions_names _ _ (same_definitions _ _ (parse_modules_same _ _ Hp))) in Hv.
  exact Hv.
Qed.

Lemma config_module_names : forall names input b,
  build_from_config names input = Ok b ->
  NoDup (map mod_name input) /\ NoDup names
  /\ (forall n, In n names <-> In n (map mod_name input)).
Proof.
  intros names input b H.
  destruct (build_from_config_inv _ _ _ H) as (ms & Hp & Hb & Ha & Hn & Hl & _ & Hs).
  assert (E := same_module_names _ _ (parse_modules_same _ _ Hp)). rewrite E in Hn.
  split; [exact Hn|]. split; [exact Hl|]. intros n. destruct Hs as [S1 S2].
  unfold module_names, bm_name in S1, S2. rewrite <- map_map in S1, S2.
  fold (all_modules b) in S1, S2. rewrite Ha, E in S1, S2. split; [apply S1 | apply S2].
Qed.

Lemma config_missing : forall names input n,
  In n (map mod_name input) -> ~ In n names -> forall b, build_from_config names input <> Ok b.
Proof.
  intros names input n Hin Hout b H. destruct (config_module_names _ _ _ H) as (_ & _ & G).
  apply Hout, G, Hin.
Qed.

Lemma config_clauses : forall names input b n c ms k w,
  Forall (fun m => grammatical m = true) input -> build_from_config names input = Ok b ->
  In (DSequence n c ms) (definitions input) -> In k ms -> m_with k = Some w ->
  clause_valid (definitions input) (m_type k) w.
Proof.
  intros names input b n c ms k w Hg H Hd Hk Hw.
  assert (V : bundle_valid names input) by (apply bundle_accepted_iff; eauto).
  exact (bv_clauses _ _ V n c ms k w Hd Hk Hw).
Qed.

(** With unique names, a clause on a sequence type has only keys of that
    sequence. *)
Lemma clause_valid_inv : forall ds t n c ms cm l,
  NoDup (map def_name ds) -> clause_valid ds t (WC cm l) ->
  element t = TName n -> In (DSequence n c ms) ds ->
  forall k v kc, In (WI k v kc) l ->
    exists x, first_member k ms x /\ forall w, v = VWith w -> clause_valid ds (m_type x) w.
Proof.
  intros ds t n c ms cm l Hn Hc He Hin.
  inversion Hc as [t' n' c' ms' cm' l' He' Hin' Hl|t' w' Hb]; subst.
  - assert (n' = n) by congruence. subst n'.
    assert (E : DSequence n c ms = DSequence n c' ms').
    { apply In_nth_error in Hin, Hin'. destruct Hin as (i & Hi), Hin' as (j & Hj).
      assert (i = j) by (apply (NoDup_nth_error_map _ _ def_name ds i j _ _ Hn Hi Hj); reflexivity).
      subst j. congruence. }
    injection E as -> ->. exact Hl.
  - exfalso. apply Hb. exists n. exact He.
Qed.

Lemma foreign_key_rejected : forall names input n c ms k t0 n' c' ms' cm l key v kc,
  Forall (fun m => grammatical m = true) input ->
  In (DSequence n c ms) (definitions input) -> In k ms -> m_type k = t0 ->
  m_with k = Some (WC cm l) ->
  element t0 = TName n' -> In (DSequence n' c' ms') (definitions input) ->
  In (WI key v kc) l -> ~ In key (map m_key ms') ->
  forall b, build_from_config names input <> Ok b.
Proof.
  intros names input n c ms k t0 n' c' ms' cm l key v kc Hg Hd Hk Ht Hw He Hd' Hi Hf b H.
  subst t0. assert (Hc := config_clauses _ _ _ _ _ _ _ _ Hg H Hd Hk Hw).
  destruct (clause_valid_inv _ _ _ _ _ _ _ (config_names _ _ _ H) Hc He Hd' key v kc Hi)
    as (x & Hx & _).
  destruct (first_member_In _ _ _ Hx) as [Hx1 Hx2]. apply Hf. rewrite <- Hx2. apply in_map. exact Hx1.
Qed.
