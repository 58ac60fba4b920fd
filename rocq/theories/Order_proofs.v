(** * Proofs about the ordering loops *)
From Coq Require Import Relations ZifyBool ZifyNat.
From Verif Require Import Base PyNum PyStr Ast Size Processor Bundle Sorter Lib_proofs
  Spec_Enum Spec_Num Spec_Check Spec_Grammar Spec_Bundle Spec_Order Enum_proofs Check_proofs
  Bundle_proofs Accept_proofs CCommon Gen_proofs Field_proofs.
Open Scope list_scope.

(** ** Cycles *)

(** If every element of a finite non-empty set has a predecessor in the set
    there is a cycle. *)
Fixpoint chain (R : string -> string -> Prop) (l : list string) : Prop :=
  match l with
  | a :: (b :: _) as r => R a b /\ chain R r
  | _ => True
  end.

Lemma chain_trans : forall R r x y, chain R (x :: r) -> In y r -> clos_trans string R x y.
Proof.
  intros R. induction r as [|a r IH]; intros x y H Hy; [destruct Hy|].
  destruct H as [H1 H2]. destruct Hy as [->|Hy].
  - apply t_step. exact H1.
  - apply t_trans with a; [apply t_step; exact H1|]. apply IH; assumption.
Qed.

Lemma chain_nodup : forall R l, chain R l -> NoDup l \/ cyclic R.
Proof.
  intros R. induction l as [|a l IH]; intros H; [left; constructor|].
  destruct (in_dec string_dec a l) as [Ha|Ha].
  - right. exists a. eapply chain_trans; eassumption.
  - destruct IH as [G|G]; [destruct l; [exact I|apply H]| |right; exact G].
    left. constructor; assumption.
Qed.

Lemma finite_cycle : forall R l, l <> [] ->
  (forall x, In x l -> exists y, In y l /\ R y x) -> cyclic R.
Proof.
  intros R l Hl H.
  assert (G : forall n, exists c, length c = S n /\ incl c l /\ chain R c).
  { induction n as [|n (c & L & Hc & Hch)].
    - destruct l as [|a l]; [contradiction|]. exists [a]. split; [reflexivity|].
      split; [|exact I]. intros x [<-|[]]. left. reflexivity.
    - destruct c as [|a c]; [discriminate|]. destruct (H a) as (y & Hy & Ry); [apply Hc; left; reflexivity|].
      exists (y :: a :: c). split; [simpl in *; lia|]. split.
      + intros z [<-|Hz]; [exact Hy|]. apply Hc. exact Hz.
      + split; assumption. }
  destruct (G (length l)) as (c & L & Hc & Hch).
  destruct (chain_nodup R c Hch) as [N|N]; [|exact N].
  exfalso. apply NoDup_incl_length in Hc; [|exact N]. lia.
Qed.

(** A cycle is never left: [P] propagates backwards along a cycle. *)
Lemma trans_first : forall (R : string -> string -> Prop) x y, clos_trans string R x y ->
  R x y \/ exists z, R x z /\ clos_trans string R z y.
Proof.
  intros R x y H. apply clos_trans_t1n in H. inversion H as [z Hz|z w Hz Hw]; subst; [left; exact Hz|].
  right. exists z. split; [exact Hz|]. apply clos_t1n_trans. exact Hw.
Qed.

Lemma cycle_next : forall R x, clos_trans string R x x -> exists z, R x z /\ clos_trans string R z z.
Proof.
  intros R x H. destruct (trans_first R x x H) as [G|(z & G1 & G2)]; [eauto|].
  exists z. split; [exact G1|]. apply t_trans with x; [exact G2|]. apply t_step. exact G1.
Qed.

Lemma trans_last : forall (R : string -> string -> Prop) x y, clos_trans string R x y ->
  R x y \/ exists z, clos_trans string R x z /\ R z y.
Proof.
  intros R x y H. apply clos_trans_tn1 in H. inversion H as [Hz|z w Hz Hw]; subst; [left; assumption|].
  right. eexists. split; [|eassumption]. apply clos_tn1_trans. assumption.
Qed.

Lemma cycle_prev : forall R x, clos_trans string R x x -> exists z, R z x /\ clos_trans string R z z.
Proof.
  intros R x H. destruct (trans_last R x x H) as [G|(z & G1 & G2)]; [eauto|].
  exists z. split; [exact G2|]. apply t_trans with x; [apply t_step; exact G2|exact G1].
Qed.

(** ** Lists *)

Lemma remove_nth_perm : forall A (l : list A) i x, nth_error l i = Some x -> Permutation l (x :: remove_nth i l).
Proof.
  intros A. induction l as [|a l IH]; intros [|i] x H; simpl in *; try discriminate.
  - injection H as ->. reflexivity.
  - eapply perm_trans; [apply perm_skip; apply IH; exact H|]. apply perm_swap.
Qed.

Lemma remove_nth_map : forall A B (f : A -> B) l i, map f (remove_nth i l) = remove_nth i (map f l).
Proof. intros A B f. induction l as [|a l IH]; intros [|i]; simpl; try reflexivity. rewrite IH. reflexivity. Qed.

Lemma remove_first_nth : forall l i s, NoDup l -> nth_error l i = Some s -> remove_first s l = remove_nth i l.
Proof.
  induction l as [|a l IH]; intros [|i] s Hn H; simpl in *; try discriminate.
  - injection H as ->. rewrite String.eqb_refl. reflexivity.
  - inversion Hn as [|? ? Ha Hl]; subst. rewrite (proj2 (String.eqb_neq s a)).
    + rewrite (IH i s Hl H). reflexivity.
    + intros ->. apply Ha. eapply nth_error_In. exact H.
Qed.

Lemma remove_nth_length : forall A (l : list A) i x, nth_error l i = Some x -> length l = S (length (remove_nth i l)).
Proof. intros A l i x H. apply remove_nth_perm in H. apply Permutation_length in H. exact H. Qed.

(** ** The order of modules *)

Definition order_inv (st : order_state) : Prop :=
  os_names st = map bm_name (os_list st) /\ os_imports st = import_names (os_list st)
  /\ NoDup (map bm_name (os_list st)).

(** No module of [rest], and none after a module of [order], imports it. *)
Definition clear (order rest : list bmodule) : Prop :=
  forall pre m post m', order = pre ++ m :: post -> In m' (m :: post ++ rest) ->
    ~ In (bm_name m) (dependencies (bm_mod m')).

Lemma app_cons_split : forall A (l : list A) x pre m post, l ++ [x] = pre ++ m :: post ->
  (pre = l /\ m = x /\ post = []) \/ exists post', post = post' ++ [x] /\ l = pre ++ m :: post'.
Proof.
  intros A l x pre m post H. destruct post as [|y post _] using rev_ind.
  - left. apply app_inj_tail in H. destruct H as [-> ->]. auto.
  - right. exists post. rewrite app_comm_cons, app_assoc in H. apply app_inj_tail in H.
    destruct H as [-> ->]. auto.
Qed.

Lemma clear_step : forall order l i m, clear order l -> nth_error l i = Some m ->
  ~ In (bm_name m) (import_names l) -> clear (order ++ [m]) (remove_nth i l).
Proof.
  intros order l i m Hc Hi Hm pre x post m' E Hin.
  assert (P := remove_nth_perm _ _ _ _ Hi).
  destruct (app_cons_split _ _ _ _ _ _ E) as [(-> & -> & ->)|(post' & -> & ->)].
  - simpl in Hin. apply (Permutation_in _ (Permutation_sym P)) in Hin.
    intros G. apply Hm. unfold import_names, flatten. apply in_concat. eexists.
    split; [apply in_map; exact Hin|exact G].
  - apply (Hc pre x post' m' eq_refl). destruct Hin as [<-|Hin]; [left; reflexivity|]. right.
    rewrite <- app_assoc in Hin. apply in_app_or in Hin. apply in_or_app.
    destruct Hin as [Hin|Hin]; [left; exact Hin|]. right. simpl in Hin.
    exact (Permutation_in _ (Permutation_sym P) Hin).
Qed.

Lemma order_pass_spec : forall n i st,
  order_inv st -> clear (os_order st) (os_list st) ->
  exists st' new, order_pass n i st = Ok st' /\ order_inv st'
    /\ os_order st' = os_order st ++ new /\ Permutation (os_list st) (new ++ os_list st')
    /\ clear (os_order st') (os_list st')
    /\ (forall j m, (i <= j < i + n)%nat -> nth_error (os_list st) j = Some m ->
          ~ In (bm_name m) (import_names (os_list st)) -> new <> []).
Proof.
  induction n as [|n IH]; intros i st I C.
  - exists st, []. simpl. rewrite app_nil_r. repeat (split; [first [reflexivity|assumption]|]).
    intros j m Hj. lia.
  - simpl. destruct I as (I1 & I2 & I3).
    assert (STOP : nth_error (os_names st) i = None -> forall j m, (i <= j < i + S n)%nat ->
        nth_error (os_list st) j = Some m -> ~ In (bm_name m) (import_names (os_list st)) -> @nil bmodule <> []).
    { intros Hi j m Hj Hm _. rewrite I1 in Hi. apply nth_error_None in Hi. rewrite map_length in Hi.
      exfalso. assert (G : nth_error (os_list st) j <> None) by congruence. apply nth_error_Some in G. lia. }
    destruct (nth_error (os_names st) i) as [name|] eqn:Ei.
    2:{ exists st, []. rewrite app_nil_r. split; [reflexivity|]. split; [repeat split; assumption|].
        split; [reflexivity|]. split; [reflexivity|]. split; [exact C|]. apply STOP. reflexivity. }
    rewrite I1, nth_error_map in Ei. destruct (nth_error (os_list st) i) as [m|] eqn:Em; [|discriminate].
    injection Ei as <-. destruct (mem (bm_name m) (os_imports st)) eqn:Mem.
    + destruct (IH (S i) st (conj I1 (conj I2 I3)) C) as (st' & new & E & Inv & O & P & C' & Pr).
      exists st', new. split; [exact E|]. repeat (split; [assumption|]).
      intros j x Hj Hx Hn. apply (Pr j x); [|exact Hx|exact Hn].
      assert (j <> i); [|lia]. intros ->. rewrite Em in Hx. injection Hx as <-.
      apply mem_In in Mem. rewrite I2 in Mem. contradiction.
    + apply mem_not_In in Mem. rewrite I2 in Mem.
      set (st1 := mkorder (remove_nth i (os_list st)) (remove_first (bm_name m) (os_names st))
                    (import_names (remove_nth i (os_list st))) (os_order st ++ [m])).
      assert (P1 := remove_nth_perm _ _ _ _ Em).
      assert (Inv1 : order_inv st1).
      { split; [|split]; simpl; [|reflexivity|].
        - rewrite I1. rewrite (remove_first_nth _ i); [symmetry; apply remove_nth_map|exact I3|].
          rewrite nth_error_map, Em. reflexivity.
        - apply (Permutation_map bm_name) in P1. apply (Permutation_NoDup P1) in I3. inversion I3; assumption. }
      destruct (IH (S i) st1 Inv1) as (st' & new & E & Inv & O & P & C' & Pr).
      { apply clear_step; assumption. }
      exists st', (m :: new). split; [exact E|]. split; [exact Inv|].
      split; [rewrite O; simpl; rewrite <- app_assoc; reflexivity|]. split.
      * eapply perm_trans; [exact P1|]. simpl. apply perm_skip. exact P.
      * split; [exact C'|]. intros; discriminate.
Qed.

(** Whatever happens, the loop runs out of fuel or returns a good order. *)
Lemma order_loop_spec : forall fuel st,
  order_inv st -> clear (os_order st) (os_list st) ->
  order_loop fuel st = OutOfFuel
  \/ exists l, order_loop fuel st = Ok l /\ Permutation l (os_order st ++ os_list st) /\ clear l [].
Proof.
  induction fuel as [|f IH]; intros st I C.
  - simpl. destruct (os_list st) eqn:E; [|left; reflexivity].
    right. exists (os_order st). rewrite app_nil_r. auto.
  - simpl. destruct (os_list st) eqn:E.
    { right. exists (os_order st). rewrite app_nil_r. auto. }
    rewrite <- E in *. clear E.
    destruct (order_pass_spec (length (os_names st)) 0 st I C) as (st' & new & E & Inv & O & P & C' & _).
    rewrite E. simpl. destruct (IH st' Inv C') as [H|(l' & H & Pl & Cl)]; [left; exact H|].
    right. exists l'. split; [exact H|]. split; [|exact Cl]. eapply perm_trans; [exact Pl|].
    rewrite O, <- app_assoc. apply Permutation_app_head. apply Permutation_sym. exact P.
Qed.

(** With a module that nobody imports in every remaining set, the loop ends. *)
Lemma order_loop_terminates : forall fuel st,
  order_inv st -> clear (os_order st) (os_list st) ->
  (forall l, l <> [] -> incl l (os_list st) -> exists m, In m l /\ ~ In (bm_name m) (import_names l)) ->
  (length (os_list st) <= fuel)%nat -> order_loop fuel st <> OutOfFuel.
Proof.
  induction fuel as [|f IH]; intros st I C H L.
  - simpl. destruct (os_list st); [discriminate|simpl in L; lia].
  - cbn [order_loop]. destruct (os_list st) eqn:E; [discriminate|].
    rewrite <- E in *. assert (NE : os_list st <> []) by (rewrite E; discriminate). clear E.
    destruct (order_pass_spec (length (os_names st)) 0 st I C) as (st' & new & E & Inv & O & P & C' & Pr).
    rewrite E. simpl. apply IH; try assumption.
    + intros q Hq Hincl. apply H; [exact Hq|]. intros x Hx. apply (Permutation_in _ (Permutation_sym P)).
      apply in_or_app. right. apply Hincl. exact Hx.
    + destruct (H (os_list st) NE (incl_refl _)) as (m & Hm & Hn).
      destruct (In_nth_error _ _ Hm) as (j & Hj).
      assert (G : new <> []).
      { apply (Pr j m); [|exact Hj|exact Hn]. split; [lia|]. destruct I as (I1 & _). rewrite I1, map_length.
        simpl. apply nth_error_Some. congruence. }
      apply Permutation_length in P. rewrite app_length in P. destruct new; [contradiction|]. simpl in P. lia.
Qed.

Lemma In_import_names : forall l n, In n (import_names l) <-> exists m, In m l /\ In n (dependencies (bm_mod m)).
Proof.
  intros l n. unfold import_names, flatten. rewrite in_concat. split.
  - intros (x & Hx & Hn). apply in_map_iff in Hx. destruct Hx as (m & <- & Hm). eauto.
  - intros (m & Hm & Hn). exists (dependencies (bm_mod m)). split; [|exact Hn].
    apply (in_map (fun bm => dependencies (bm_mod bm))). exact Hm.
Qed.

Lemma imports_from_dep : forall b bm n, In bm (b_modules b) -> In n (dependencies (bm_mod bm)) ->
  imports_from (all_modules b) (bm_name bm) n.
Proof.
  intros b bm n Hb Hn. unfold dependencies in Hn. apply in_map_iff in Hn. destruct Hn as (it & <- & Hit).
  exists (bm_mod bm), it. repeat split; auto. apply in_map. exact Hb.
Qed.

Lemma imports_from_inv : forall b x y, imports_from (all_modules b) x y ->
  exists bm, In bm (b_modules b) /\ bm_name bm = x /\ In y (dependencies (bm_mod bm)).
Proof.
  intros b x y (m & it & Hm & Hn & Hit & Hy). apply in_map_iff in Hm. destruct Hm as (bm & <- & Hbm).
  exists bm. split; [exact Hbm|]. split; [exact Hn|]. subst y. apply in_map. exact Hit.
Qed.

Lemma ordered_spec : forall fuel b, NoDup (module_names b) ->
  get_modules_ordered fuel b = OutOfFuel
  \/ exists l, get_modules_ordered fuel b = Ok l /\ Permutation l (b_modules b) /\ clear l [].
Proof.
  intros fuel b Hn. unfold get_modules_ordered, create_ordered_import_list.
  apply (order_loop_spec fuel (mkorder (b_modules b) (map bm_name (b_modules b)) (import_names (b_modules b)) [])).
  - split; [reflexivity|]. split; [reflexivity|]. exact Hn.
  - intros pre m post m' E. destruct pre; discriminate.
Qed.

Lemma ordered_terminates : forall fuel b, NoDup (module_names b) ->
  acyclic (imports_from (all_modules b)) -> (length (b_modules b) <= fuel)%nat ->
  get_modules_ordered fuel b <> OutOfFuel.
Proof.
  intros fuel b Hn Ha Hf. unfold get_modules_ordered, create_ordered_import_list.
  apply order_loop_terminates; simpl.
  - split; [reflexivity|]. split; [reflexivity|]. exact Hn.
  - intros pre m post m' E. destruct pre; discriminate.
  - intros l Hl Hincl.
    (* otherwise every module of [l] is imported by one of [l] *)
    assert (D : (exists m, In m l /\ ~ In (bm_name m) (import_names l))
                \/ (forall m, In m l -> In (bm_name m) (import_names l))).
    { clear Hl Hincl. generalize (import_names l) as imp. intros imp. induction l as [|m l IH].
      - right. intros m [].
      - destruct (in_dec string_dec (bm_name m) imp) as [G|G].
        + destruct IH as [(x & Hx & Hx')|IH].
          * left. exists x. split; [right; exact Hx|exact Hx'].
          * right. intros x [<-|Hx]; auto.
        + left. exists m. split; [left; reflexivity|exact G]. }
    destruct D as [D|D]; [exact D|]. exfalso. apply Ha.
    apply (finite_cycle _ (map bm_name l)).
    + destruct l; [contradiction|discriminate].
    + intros x Hx. apply in_map_iff in Hx. destruct Hx as (m & <- & Hm).
      apply D in Hm. apply In_import_names in Hm. destruct Hm as (m' & Hm' & Hd).
      exists (bm_name m'). split; [apply in_map; exact Hm'|].
      apply imports_from_dep; [apply Hincl; exact Hm'|exact Hd].
  - exact Hf.
Qed.

(** The order and the positions in it. *)
Lemma clear_positions : forall l i j mi mj, clear l [] ->
  nth_error l i = Some mi -> nth_error l j = Some mj -> In (bm_name mj) (dependencies (bm_mod mi)) ->
  (i < j)%nat.
Proof.
  intros l i j mi mj C Hi Hj Hd. destruct (Nat.lt_ge_cases i j) as [G|G]; [exact G|]. exfalso.
  destruct (nth_error_split _ _ Hj) as (pre & post & E & L).
  apply (C pre mj post mi E); [|exact Hd]. rewrite app_nil_r.
  rewrite E in Hi. rewrite nth_error_app2 in Hi by lia. eapply nth_error_In. exact Hi.
Qed.

(** A cycle of imports never leaves the list of modules. *)
Lemma cyclic_never : forall fuel b, NoDup (module_names b) ->
  (forall bm n, In bm (b_modules b) -> In n (dependencies (bm_mod bm)) -> In n (module_names b)) ->
  cyclic (imports_from (all_modules b)) -> get_modules_ordered fuel b = OutOfFuel.
Proof.
  intros fuel b Hn Hin (x & Hx). destruct (ordered_spec fuel b Hn) as [H|(l & _ & P & C)]; [exact H|]. exfalso.
  (* every position of a module on a cycle has an earlier one *)
  assert (G : forall n i m, (i < n)%nat -> nth_error l i = Some m ->
      clos_trans string (imports_from (all_modules b)) (bm_name m) (bm_name m) -> False).
  { induction n as [|n IH]; intros i m Hi Hm Hc; [lia|].
    destruct (cycle_prev _ _ Hc) as (z & Rz & Cz).
    destruct (imports_from_inv _ _ _ Rz) as (bz & Hbz & <- & Hdz).
    apply (Permutation_in _ (Permutation_sym P)) in Hbz. destruct (In_nth_error _ _ Hbz) as (j & Hj).
    assert (L := clear_positions l j i bz m C Hj Hm Hdz). apply (IH j bz); [lia|exact Hj|exact Cz]. }
  destruct (cycle_next _ _ Hx) as (z & Rz & Cz). destruct (cycle_next _ _ Cz) as (y & Ry & _).
  destruct (imports_from_inv _ _ _ Ry) as (bz & Hbz & <- & _).
  apply (Permutation_in _ (Permutation_sym P)) in Hbz. destruct (In_nth_error _ _ Hbz) as (j & Hj).
  apply (G (S j) j bz); [lia|exact Hj|exact Cz].
Qed.

(** ** The order of definitions *)

Lemma children_members : forall d, def_children d = members_of d.
Proof. intros d. destruct d; reflexivity. Qed.

(** Every member of a definition has a type of [init] or of an earlier
    definition. *)
Definition sorted_ok (init : list string) (l : list definition) : Prop :=
  forall pre d post k, l = pre ++ d :: post -> In k (members_of d) ->
    In (type_name (m_type k)) (init ++ map def_name pre).

Lemma all_defined_spec : forall defined d, all_defined defined d = true <->
  forall k, In k (members_of d) -> In (type_name (m_type k)) defined.
Proof.
  intros defined d. unfold all_defined. rewrite forallb_forall, children_members. split; intros H k Hk.
  - apply mem_In. apply H. exact Hk.
  - apply mem_In. apply H. exact Hk.
Qed.

Lemma sort_pass_spec : forall init todo done done' defined' rest,
  sort_pass todo done (init ++ map def_name done) = (done', defined', rest) -> sorted_ok init done ->
  sorted_ok init done' /\ defined' = init ++ map def_name done'
  /\ Permutation (done ++ todo) (done' ++ rest)
  /\ (length rest <= length todo)%nat
  /\ ((exists d, In d todo /\ all_defined (init ++ map def_name done) d = true) ->
      (length rest < length todo)%nat).
Proof.
  intros init. induction todo as [|d r IH]; intros done done' defined' rest H S; simpl in H.
  - injection H as <- <- <-. repeat split; auto. intros (d & [] & _).
  - destruct (all_defined (init ++ map def_name done) d) eqn:A.
    + replace ((init ++ map def_name done) ++ [def_name d])
        with (init ++ map def_name (done ++ [d])) in H by (rewrite map_app, app_assoc; reflexivity).
      apply IH in H.
      * destruct H as (H1 & H2 & H3 & H4 & _). split; [exact H1|]. split; [exact H2|]. split.
        -- rewrite <- app_assoc in H3. exact H3.
        -- simpl. split; intros; lia.
      * intros pre x post k E Hk. destruct (app_cons_split _ _ _ _ _ _ E) as [(-> & -> & ->)|(post' & -> & ->)].
        -- rewrite all_defined_spec in A. apply A. exact Hk.
        -- exact (S pre x post' k eq_refl Hk).
    + destruct (sort_pass r done (init ++ map def_name done)) as [[x y] z] eqn:E. injection H as <- <- <-.
      apply IH in E; [|exact S]. destruct E as (H1 & H2 & H3 & H4 & H5).
      split; [exact H1|]. split; [exact H2|]. split.
      * eapply perm_trans; [apply Permutation_sym, Permutation_middle|].
        eapply perm_trans; [apply perm_skip; exact H3|]. apply Permutation_middle.
      * simpl. split; [lia|]. intros (q & [<-|Hq] & Aq); [congruence|].
        assert (length z < length r)%nat by (apply H5; eauto). lia.
Qed.

Lemma sort_loop_spec : forall init fuel todo done, sorted_ok init done ->
  sort_loop fuel todo done (init ++ map def_name done) = OutOfFuel
  \/ exists l, sort_loop fuel todo done (init ++ map def_name done) = Ok l
       /\ Permutation l (done ++ todo) /\ sorted_ok init l.
Proof.
  intros init. induction fuel as [|f IH]; intros todo done S.
  - destruct todo; simpl; [|left; reflexivity]. right. exists done. rewrite app_nil_r. auto.
  - destruct todo as [|d r]; [right; exists done; rewrite app_nil_r; auto|].
    cbn [sort_loop]. destruct (sort_pass (d :: r) done (init ++ map def_name done)) as [[x y] z] eqn:E.
    apply sort_pass_spec in E; [|exact S]. destruct E as (H1 & -> & H3 & _ & _).
    destruct (IH z x H1) as [G|(l & G1 & G2 & G3)]; [left; exact G|].
    right. exists l. split; [exact G1|]. split; [|exact G3].
    eapply perm_trans; [exact G2|]. apply Permutation_sym. exact H3.
Qed.

Lemma sort_loop_terminates : forall init all fuel todo done, sorted_ok init done ->
  Permutation (done ++ todo) all ->
  (forall dn td, td <> [] -> Permutation (dn ++ td) all ->
     exists d, In d td /\ all_defined (init ++ map def_name dn) d = true) ->
  (length todo <= fuel)%nat -> sort_loop fuel todo done (init ++ map def_name done) <> OutOfFuel.
Proof.
  intros init all. induction fuel as [|f IH]; intros todo done S P H L.
  - destruct todo; [discriminate|simpl in L; lia].
  - destruct todo as [|d r]; [discriminate|].
    cbn [sort_loop]. destruct (sort_pass (d :: r) done (init ++ map def_name done)) as [[x y] z] eqn:E.
    apply sort_pass_spec in E; [|exact S]. destruct E as (H1 & -> & H3 & _ & H5).
    apply IH; auto.
    + eapply perm_trans; [apply Permutation_sym; exact H3|exact P].
    + assert (length z < length (d :: r))%nat; [|lia]. apply H5. apply H; [discriminate|exact P].
Qed.

Lemma sorted_spec : forall fuel m,
  sorted_definitions fuel m = OutOfFuel
  \/ exists l, sorted_definitions fuel m = Ok l /\ Permutation l (mod_defs m)
       /\ sorted_ok (initially_defined m) l.
Proof.
  intros fuel m. unfold sorted_definitions.
  destruct (sort_loop_spec (initially_defined m) fuel (mod_defs m) []) as [H|(l & H)].
  - intros pre d post k E. destruct pre; discriminate.
  - simpl in H. rewrite app_nil_r in H. left. exact H.
  - simpl in H. rewrite app_nil_r in H. right. exists l. exact H.
Qed.

Lemma clos_trans_flip : forall (R : string -> string -> Prop) x y,
  clos_trans string (fun a b => R b a) x y -> clos_trans string R y x.
Proof.
  intros R x y H. induction H as [x y H|x y z _ IH1 _ IH2]; [apply t_step; exact H|].
  eapply t_trans; eassumption.
Qed.

Lemma sorted_terminates : forall fuel m,
  (forall d k, In d (mod_defs m) -> In k (members_of d) ->
     type_ok (m_type k) = true /\ element (m_type k) <> TNull) ->
  types_defined m -> acyclic (uses_local m) -> (length (mod_defs m) <= fuel)%nat ->
  sorted_definitions fuel m <> OutOfFuel.
Proof.
  intros fuel m Hk Ht Ha Hf. unfold sorted_definitions.
  replace (initially_defined m) with (initially_defined m ++ map def_name []) by (cbn [map]; apply app_nil_r).
  apply (sort_loop_terminates _ (mod_defs m)); try assumption; try reflexivity.
  { intros pre d post k E. destruct pre; discriminate. }
  intros dn td Htd P.
  assert (D : (exists d, In d td /\ all_defined (initially_defined m ++ map def_name dn) d = true)
     \/ forall d, In d td -> all_defined (initially_defined m ++ map def_name dn) d = false).
  { clear. induction td as [|d td IH]; [right; intros d []|].
    destruct (all_defined (initially_defined m ++ map def_name dn) d) eqn:E.
    - left. exists d. split; [left; reflexivity|exact E].
    - destruct IH as [(x & Hx & Ex)|IH].
      + left. exists x. split; [right; exact Hx|exact Ex].
      + right. intros x [<-|Hx]; auto. }
  destruct D as [D|D]; [exact D|]. exfalso. apply Ha.
  assert (Cy : cyclic (fun a b => uses_local m b a)).
  { apply (finite_cycle _ (map def_name td)); [destruct td; [contradiction|discriminate]|].
    intros x Hx. apply in_map_iff in Hx. destruct Hx as (d & <- & Hd).
    assert (Hdm : In d (mod_defs m)) by (apply (Permutation_in _ P); apply in_or_app; right; exact Hd).
    assert (E := D d Hd). unfold all_defined in E. rewrite children_members in E.
    assert (F : exists k, In k (members_of d) /\ mem (type_name (m_type k)) (initially_defined m ++ map def_name dn) = false).
    { clear - E. revert E. generalize (initially_defined m ++ map def_name dn) as ns. intros ns E.
      induction (members_of d) as [|k l IH]; simpl in E; [discriminate|].
      destruct (mem (type_name (m_type k)) ns) eqn:G.
      - destruct (IH E) as (x & Hx & Ex). exists x. split; [right; exact Hx|exact Ex].
      - exists k. split; [left; reflexivity|exact G]. }
    destruct F as (k & Hkd & F). apply mem_not_In in F.
    destruct (Hk d k Hdm Hkd) as [T1 T2].
    assert (En : element (m_type k) = TName (type_name (m_type k))).
    { apply element_known; try assumption. split; [reflexivity|]. intros G. apply F.
      apply in_or_app. left. unfold initially_defined. apply in_or_app. left. exact G. }
    destruct (Ht d k _ Hdm Hkd En) as [Hi|Hi].
    - exfalso. apply F. apply in_or_app. left. unfold initially_defined. apply in_or_app. right. exact Hi.
    - exists (type_name (m_type k)). split.
      + unfold defined_names in Hi. apply in_map_iff in Hi. destruct Hi as (d' & E' & Hd').
        apply (Permutation_in _ (Permutation_sym P)) in Hd'. apply in_app_or in Hd'.
        rewrite <- E'. destruct Hd' as [Hd'|Hd']; [|apply in_map; exact Hd'].
        exfalso. apply F. apply in_or_app. right. rewrite <- E'. apply in_map. exact Hd'.
      + exists d, k. auto. }
  destruct Cy as (x & Hx). exists x. apply clos_trans_flip. exact Hx.
Qed.

(** Positions. *)
Lemma sorted_positions : forall init l i di k n, sorted_ok init l -> nth_error l i = Some di ->
  In k (members_of di) -> element (m_type k) = TName n -> ~ In n init ->
  exists j dj, (j < i)%nat /\ nth_error l j = Some dj /\ def_name dj = n.
Proof.
  intros init l i di k n S Hi Hk He Hn.
  destruct (nth_error_split _ _ Hi) as (pre & post & E & L).
  assert (G := S pre di post k E Hk). rewrite (element_name _ _ He) in G.
  apply in_app_or in G. destruct G as [G|G]; [contradiction|].
  apply in_map_iff in G. destruct G as (d & Ed & Hd). destruct (In_nth_error _ _ Hd) as (j & Hj).
  assert (Lj : (j < length pre)%nat) by (apply nth_error_Some; congruence).
  exists j, d. split; [lia|]. split; [|exact Ed]. rewrite E, nth_error_app1 by exact Lj. exact Hj.
Qed.

Lemma recursive_never : forall fuel m, NoDup (defined_names m) ->
  (forall n, In n (defined_names m) -> ~ In n (initially_defined m)) ->
  cyclic (uses_local m) -> sorted_definitions fuel m = OutOfFuel.
Proof.
  intros fuel m Hn Hi (x & Hx). destruct (sorted_spec fuel m) as [H|(l & _ & P & S)]; [exact H|]. exfalso.
  assert (G : forall n i d, (i < n)%nat -> nth_error l i = Some d ->
      clos_trans string (uses_local m) (def_name d) (def_name d) -> False).
  { induction n as [|n IH]; intros i d Hin Hd Hc; [lia|].
    destruct (cycle_next _ _ Hc) as (z & (d' & k & Hd' & En & Hk & He & Hz) & Cz).
    assert (Ed : d' = d).
    { apply (NoDup_map_inj _ _ def_name (mod_defs m)); try assumption.
      apply (Permutation_in _ P). eapply nth_error_In. exact Hd. }
    subst d'.
    destruct (sorted_positions _ _ _ _ _ _ S Hd Hk He (Hi z Hz)) as (j & dj & Hj & Hdj & Ej).
    apply (IH j dj); [lia|exact Hdj|]. rewrite Ej. exact Cz. }
  destruct (cycle_next _ _ Hx) as (z & (d & k & Hd & En & _) & _).
  apply (Permutation_in _ (Permutation_sym P)) in Hd. destruct (In_nth_error _ _ Hd) as (j & Hj).
  apply (G (1 + j)%nat j d); [lia|exact Hj|]. rewrite En. exact Hx.
Qed.

(** ** In accepted bundles *)

Lemma config_module_names : forall names input b, build_from_config names input = Ok b ->
  NoDup (module_names b)
  /\ (forall bm n, In bm (b_modules b) -> In n (dependencies (bm_mod bm)) -> In n (module_names b)).
Proof.
  intros names input b H. destruct (build_from_config_inv _ _ _ H) as (ms & Hp & Hb & Ha & Hn & _).
  assert (E : module_names b = map mod_name ms).
  { unfold module_names, bm_name. rewrite <- Ha. unfold all_modules. rewrite map_map. reflexivity. }
  split; [rewrite E; exact Hn|]. intros bm n Hbm Hd.
  unfold build in Hb. apply bind_ok in Hb. destruct Hb as ([] & Hc & _).
  apply check_dependencies_nodup with (1 := Hn) (m := bm_mod bm) in Hc.
  - rewrite E. apply Hc. exact Hd.
  - rewrite <- Ha. unfold all_modules. apply in_map. exact Hbm.
Qed.

(** Parsed and written modules have the same imports. *)
Lemma same_imports : forall input ms x y, Forall2 same_module input ms ->
  (imports_from ms x y <-> imports_from input x y).
Proof.
  intros input ms x y F. split; intros (m & it & Hm & En & Hit & Ey).
  - destruct (Forall2_in_r _ _ _ _ _ _ F Hm) as (m0 & Hm0 & (E1 & _ & E2 & _)).
    exists m0, it. rewrite <- E1, <- E2. auto.
  - destruct (Forall2_in_l _ _ _ _ _ _ F Hm) as (m0 & Hm0 & (E1 & _ & E2 & _)).
    exists m0, it. rewrite E1, E2. auto.
Qed.

Lemma clos_trans_iff : forall (R R' : string -> string -> Prop), (forall x y, R x y <-> R' x y) ->
  forall x y, clos_trans string R x y -> clos_trans string R' x y.
Proof.
  intros R R' H x y C. induction C as [x y C|x y z _ IH1 _ IH2]; [apply t_step, H, C|eapply t_trans; eassumption].
Qed.

Lemma cyclic_iff : forall R R' : string -> string -> Prop, (forall x y, R x y <-> R' x y) -> (cyclic R <-> cyclic R').
Proof.
  intros R R' H. split; intros (x & C); exists x.
  - exact (clos_trans_iff R R' H _ _ C).
  - apply (clos_trans_iff R' R); [|exact C]. intros y z. symmetry. apply H.
Qed.

Lemma config_cyclic : forall names input b, build_from_config names input = Ok b ->
  (cyclic (imports_from (all_modules b)) <-> cyclic (imports_from input)).
Proof.
  intros names input b H. apply cyclic_iff. intros x y. apply same_imports.
  apply (accepted_same input b). left. eauto.
Qed.

Lemma modules_ordered : forall names input b fuel, build_from_config names input = Ok b ->
  acyclic (imports_from input) -> (length input <= fuel)%nat ->
  exists l, get_modules_ordered fuel b = Ok l /\ Permutation l (b_modules b)
    /\ forall i j mi mj, nth_error l i = Some mi -> nth_error l j = Some mj ->
         In (bm_name mj) (map imp_module (mod_imports (bm_mod mi))) -> (i < j)%nat.
Proof.
  intros names input b fuel H Ha Hf. destruct (config_module_names _ _ _ H) as (Hn & _).
  assert (L : length (b_modules b) = length input).
  { assert (F : Forall2 same_module input (all_modules b)) by (apply (accepted_same input b); left; eauto).
    apply Forall2_length in F. unfold all_modules in F. rewrite map_length in F. auto. }
  destruct (ordered_spec fuel b Hn) as [G|(l & G1 & G2 & G3)].
  - exfalso. apply (ordered_terminates fuel b Hn); [|lia|exact G].
    intros C. apply Ha. apply (config_cyclic names input b H). exact C.
  - exists l. split; [exact G1|]. split; [exact G2|]. intros i j mi mj Hi Hj Hd.
    exact (clear_positions l i j mi mj G3 Hi Hj Hd).
Qed.

Lemma order_sound : forall names input b fuel l, build_from_config names input = Ok b ->
  get_modules_ordered fuel b = Ok l ->
  Permutation l (b_modules b)
  /\ forall i j mi mj, nth_error l i = Some mi -> nth_error l j = Some mj ->
       In (bm_name mj) (map imp_module (mod_imports (bm_mod mi))) -> (i < j)%nat.
Proof.
  intros names input b fuel l H E. destruct (config_module_names _ _ _ H) as (Hn & _).
  destruct (ordered_spec fuel b Hn) as [G|(l' & G1 & G2 & G3)]; [congruence|].
  rewrite E in G1. injection G1 as <-. split; [exact G2|]. intros i j mi mj Hi Hj Hd.
  exact (clear_positions l i j mi mj G3 Hi Hj Hd).
Qed.

Lemma cyclic_imports_hang : forall names input b fuel, build_from_config names input = Ok b ->
  cyclic (imports_from input) -> get_modules_ordered fuel b = OutOfFuel.
Proof.
  intros names input b fuel H C. destruct (config_module_names _ _ _ H) as (Hn & Hd).
  apply cyclic_never; try assumption. apply (config_cyclic names input b H). exact C.
Qed.

(** Local and imported names are different unless a module imports itself. *)
Lemma NoDup_flat_map_inj : forall A B (f : A -> list B) l i j a b x,
  NoDup (flat_map f l) -> nth_error l i = Some a -> nth_error l j = Some b -> In x (f a) -> In x (f b) -> i = j.
Proof.
  intros A B f. induction l as [|c l IH]; intros i j a b x Hn Hi Hj Ha Hb; [destruct i; discriminate|].
  simpl in Hn. apply NoDup_app_iff in Hn. destruct Hn as (_ & Hl & Hd).
  destruct i as [|i], j as [|j]; simpl in Hi, Hj; [reflexivity| | |].
  - injection Hi as ->. exfalso. apply (Hd x Ha). apply in_flat_map. exists b.
    split; [eapply nth_error_In; exact Hj|exact Hb].
  - injection Hj as ->. exfalso. apply (Hd x Hb). apply in_flat_map. exists a.
    split; [eapply nth_error_In; exact Hi|exact Ha].
  - f_equal. eapply IH; eassumption.
Qed.

Lemma all_defs_names : forall b, map def_name (all_defs b) = flat_map (fun bm => defined_names (bm_mod bm)) (b_modules b).
Proof.
  intros b. unfold all_defs, all_modules, defined_names.
  induction (b_modules b) as [|bm l IH]; simpl; [reflexivity|]. rewrite map_app, IH. reflexivity.
Qed.

Lemma config_local_nodup : forall names input b bm, config names input b -> In bm (b_modules b) ->
  NoDup (defined_names (bm_mod bm)).
Proof.
  intros names input b bm C Hbm. assert (A := config_accepted _ _ _ C).
  destruct (accepted_same _ _ A) as (_ & _ & Hn). rewrite all_defs_names in Hn.
  apply in_split in Hbm. destruct Hbm as (l1 & l2 & E). rewrite E, flat_map_app in Hn.
  apply NoDup_app_iff in Hn. destruct Hn as (_ & Hn & _). simpl in Hn.
  apply NoDup_app_iff in Hn. apply Hn.
Qed.

Lemma config_local_not_initial : forall names input b bm n,
  config names input b -> In bm (b_modules b) ->
  ~ In (bm_name bm) (map imp_module (mod_imports (bm_mod bm))) ->
  In n (defined_names (bm_mod bm)) -> ~ In n (initially_defined (bm_mod bm)).
Proof.
  intros names input b bm n C Hbm Hself Hn Hi. unfold initially_defined in Hi. apply in_app_or in Hi.
  destruct Hi as [Hi|Hi].
  - unfold defined_names in Hn. apply in_map_iff in Hn. destruct Hn as (d & <- & Hd).
    assert (Hc : is_name_capital (def_name d) = true)
      by (apply (config_capital _ _ _ _ C); apply in_all_defs; eauto).
    apply (capital_not_keyword _ Hc). simpl in *. intuition.
  - unfold flatten in Hi. apply in_concat in Hi. destruct Hi as (ns & Hns & Hi).
    apply in_map_iff in Hns. destruct Hns as (it & <- & Hit).
    destruct (config_imported _ _ _ _ _ C Hbm Hit) as (j & im & Hj & Him & En & Hincl).
    assert (A := config_accepted _ _ _ C). destruct (accepted_same _ _ A) as (_ & _ & Hnd).
    rewrite all_defs_names in Hnd. destruct (In_nth_error _ _ Hbm) as (i & Hib).
    assert (E : i = j) by (eapply NoDup_flat_map_inj; [exact Hnd|exact Hib|exact Him|exact Hn|exact (Hincl n Hi)]).
    subst j. rewrite Hib in Him. injection Him as <-. apply Hself. rewrite En.
    apply in_map. exact Hit.
Qed.

Lemma config_types_defined : forall names input b bm, config names input b -> In bm (b_modules b) ->
  types_defined (bm_mod bm).
Proof.
  intros names input b bm C Hbm d k n Hd Hk He.
  assert (A := config_accepted _ _ _ C). destruct (accepted_same _ _ A) as (Hs & _ & _).
  assert (V := accepted_modules_valid _ _ (proj1 C) A).
  assert (Hm : In (bm_mod bm) (all_modules b)) by (apply in_map; exact Hbm).
  destruct (Forall2_in_r _ _ _ _ _ _ Hs Hm) as (m0 & Hm0 & S').
  rewrite Forall_forall in V. destruct (V m0 Hm0) as (_ & _ & T).
  destruct S' as (E1 & E2 & Ei & Fd). assert (S0 : same_module m0 (bm_mod bm)) by (split; [|split; [|split]]; assumption).
  destruct (Forall2_in_r _ _ _ _ _ _ Fd Hd) as (d0 & Hd0 & Sd).
  rewrite (same_definition_members _ _ Sd) in Hk.
  destruct (T d0 k n Hd0 Hk He) as [Hi|Hi].
  - left. unfold imported_names in *. rewrite Ei. exact Hi.
  - right. rewrite (same_defined_names _ _ S0). exact Hi.
Qed.

Lemma definitions_ordered : forall names input b bm fuel,
  Forall (fun m => grammatical m = true) input -> build_from_config names input = Ok b ->
  In bm (b_modules b) -> ~ In (bm_name bm) (map imp_module (mod_imports (bm_mod bm))) ->
  acyclic (uses_local (bm_mod bm)) -> (length (mod_defs (bm_mod bm)) <= fuel)%nat ->
  exists l, sorted_definitions fuel (bm_mod bm) = Ok l /\ Permutation l (mod_defs (bm_mod bm))
    /\ forall i j di dj k, nth_error l i = Some di -> nth_error l j = Some dj ->
         In k (members_of di) -> element (m_type k) = TName (def_name dj) -> (j < i)%nat.
Proof.
  intros names input b bm fuel Hg H Hbm Hself Ha Hf.
  assert (C : config names input b) by (split; assumption).
  destruct (sorted_spec fuel (bm_mod bm)) as [G|(l & G1 & G2 & G3)].
  - exfalso. revert G. apply sorted_terminates; try assumption.
    + intros d k Hd Hk. destruct (field_member names input b bm d k C Hbm Hd Hk) as (_ & T & _ & N). auto.
    + eapply config_types_defined; eassumption.
  - exists l. split; [exact G1|]. split; [exact G2|]. intros i j di dj k Hi Hj Hk He.
    assert (Hdj : In dj (mod_defs (bm_mod bm))) by (apply (Permutation_in _ G2); eapply nth_error_In; exact Hj).
    destruct (sorted_positions _ _ _ _ _ _ G3 Hi Hk He) as (j' & dj' & L & Hj' & E).
    { apply (config_local_not_initial names input b); try assumption. apply in_map. exact Hdj. }
    assert (j' = j); [|lia].
    assert (N : NoDup (map def_name l)).
    { apply (Permutation_NoDup (Permutation_sym (Permutation_map def_name G2))).
      exact (config_local_nodup _ _ _ _ C Hbm). }
    rewrite NoDup_nth_error in N. apply N.
    + rewrite map_length. apply nth_error_Some. congruence.
    + rewrite !nth_error_map, Hj, Hj'. simpl. congruence.
Qed.

Lemma recursive_types_hang : forall names input b bm fuel,
  Forall (fun m => grammatical m = true) input -> build_from_config names input = Ok b ->
  In bm (b_modules b) -> ~ In (bm_name bm) (map imp_module (mod_imports (bm_mod bm))) ->
  cyclic (uses_local (bm_mod bm)) -> sorted_definitions fuel (bm_mod bm) = OutOfFuel.
Proof.
  intros names input b bm fuel Hg H Hbm Hself Hc.
  assert (C : config names input b) by (split; assumption). apply recursive_never; try assumption.
  - eapply config_local_nodup; eassumption.
  - intros n. apply (config_local_not_initial names input b); assumption.
Qed.
