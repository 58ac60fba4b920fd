(** * Proofs about the order of modules and runs that hang *)
From Coq Require Import Permutation Relations Lia.
From Verif Require Import Base PyNum PyStr Ast Size Processor Bundle Sorter CCommon GenCfs GenC GenBinary GenCosmos Main
  Lib_proofs Str_proofs Spec_Enum Enum_proofs Spec_Num Num_proofs Spec_Check Check_proofs Spec_Grammar Spec_Bundle Bundle_proofs Reject_proofs
  Name_proofs Accept_proofs Spec_Size Size_proofs Spec_Gen Gen_proofs Field_proofs Spec_Order Order_proofs Cdata_proofs Run_proofs Note_proofs
  Spec_Files Files_proofs Disk_proofs Spec_Layout Layout_proofs Spec_Cfs Cfs_proofs Spec_Binary Binary_proofs Packed_proofs Spec_Runs
  Runs_proofs Runs2_proofs Spec_Failures Failures_proofs Fuel_proofs Spec_Hang.
Open Scope string_scope.
Open Scope list_scope.

(** ** The order *)
Lemma imported_names : forall l m, In (bm_name m) (import_names l) <-> imported_in (map bm_mod l) (bm_mod m).
Proof.
  intros l m. rewrite In_import_names. unfold imported_in, imports_module, dependencies, bm_name. split.
  - intros (x & Hx & H). exists (bm_mod x). split; [apply in_map; exact Hx|exact H].
  - intros (a & Ha & H). apply in_map_iff in Ha as (x & <- & Hx). exists x. auto.
Qed.

Lemma remove_nth_app : forall A (a : list A) x r, remove_nth (length a) (a ++ x :: r) = a ++ r.
Proof. induction a as [|y a IH]; intros x r; [reflexivity|]. cbn [length app remove_nth]. rewrite IH. reflexivity. Qed.

Lemma pass_walk : forall n i st st' kept ahead, order_inv st -> os_list st = kept ++ ahead -> length kept = i -> (length ahead <= n)%nat ->
  order_pass n i st = Ok st' ->
  order_inv st' /\ exists tk, os_order st' = os_order st ++ tk
    /\ walk (map bm_mod kept) (map bm_mod ahead) (map bm_mod tk) (map bm_mod (os_list st')).
Proof.
  induction n as [|n IH]; intros i st st' kept ahead I El Li La H.
  - destruct ahead; [|cbn in La; lia]. cbn in H. injection H as <-. split; [exact I|]. exists []. rewrite app_nil_r. split; [reflexivity|].
    rewrite El, app_nil_r. apply walk_end.
  - cbn [order_pass] in H. destruct I as (I1 & I2 & I3).
    destruct ahead as [|m ahead].
    { assert (N : nth_error (os_names st) i = None) by (apply nth_error_None; rewrite I1, map_length, El, app_nil_r; lia).
      rewrite N in H. injection H as <-. split; [repeat split; assumption|]. exists []. rewrite app_nil_r. split; [reflexivity|].
      rewrite El, app_nil_r. apply walk_end. }
    assert (Em : nth_error (os_list st) i = Some m) by (rewrite El, nth_error_app2, Li, Nat.sub_diag by lia; reflexivity).
    assert (En : nth_error (os_names st) i = Some (bm_name m)) by (rewrite I1, nth_error_map, Em; reflexivity).
    rewrite En in H. destruct (mem (bm_name m) (os_imports st)) eqn:Mem.
    + apply mem_In in Mem. rewrite I2, imported_names, El in Mem.
      destruct (IH (S i) st st' (kept ++ [m]) ahead) as (I' & tk & E & W); try assumption.
      * repeat split; assumption.
      * rewrite El, <- app_assoc. reflexivity.
      * rewrite app_length. cbn. lia.
      * cbn in La. lia.
      * split; [exact I'|]. exists tk. split; [exact E|]. cbn [map]. apply walk_keep.
        -- rewrite map_app in Mem. exact Mem.
        -- rewrite map_app in W. exact W.
    + apply mem_not_In in Mem. rewrite I2, imported_names, El, map_app in Mem. cbn [map] in Mem. rewrite Em in H.
      assert (Rm : remove_nth i (os_list st) = kept ++ ahead) by (rewrite El, <- Li; apply remove_nth_app).
      rewrite Rm in H.
      set (st1 := mkorder (kept ++ ahead) (remove_first (bm_name m) (os_names st)) (import_names (kept ++ ahead)) (os_order st ++ [m])) in H.
      assert (Inv : order_inv st1).
      { split; [|split]; cbn [st1 os_names os_list os_imports]; [|reflexivity|].
        - rewrite I1, (remove_first_nth _ i); [rewrite <- remove_nth_map, Rm; reflexivity|exact I3|]. rewrite nth_error_map, Em. reflexivity.
        - rewrite <- Rm, remove_nth_map. assert (P := remove_nth_perm _ _ _ _ Em). apply (Permutation_map bm_name) in P. rewrite <- remove_nth_map.
          apply (Permutation_NoDup P) in I3. inversion I3. assumption. }
      destruct ahead as [|x ahead].
      * assert (D : order_pass n (S i) st1 = Ok st1).
        { destruct n as [|k]; cbn [order_pass]; [reflexivity|].
          assert (N : nth_error (os_names st1) (S i) = None).
          { apply nth_error_None. destruct Inv as (-> & _). cbn [st1 os_list]. rewrite map_length, app_nil_r. lia. }
          rewrite N. reflexivity. }
        rewrite D in H. injection H as <-. split; [exact Inv|]. exists [m]. split; [reflexivity|]. cbn [st1 os_list map]. rewrite app_nil_r.
        apply walk_last. exact Mem.
      * destruct (IH (S i) st1 st' (kept ++ [x]) ahead) as (I' & tk & E & W); try assumption.
        -- cbn [st1 os_list]. rewrite <- app_assoc. reflexivity.
        -- rewrite app_length. cbn. lia.
        -- cbn in La. lia.
        -- split; [exact I'|]. exists (m :: tk). split; [rewrite E; cbn [st1 os_order]; rewrite <- app_assoc; reflexivity|].
           cbn [map]. apply walk_take; [exact Mem|]. rewrite map_app in W. exact W.
Qed.

Lemma loop_order : forall fuel st l, order_inv st -> order_loop fuel st = Ok l ->
  exists order, l = os_order st ++ order /\ taken_in_order (map bm_mod (os_list st)) (map bm_mod order).
Proof.
  induction fuel as [|f IH]; intros st l I H; cbn [order_loop] in H.
  - destruct (os_list st) eqn:E; [|discriminate]. injection H as <-. exists []. split; [rewrite app_nil_r; reflexivity|constructor].
  - destruct (os_list st) eqn:E; [injection H as <-; exists []; split; [rewrite app_nil_r; reflexivity|constructor]|].
    apply bind_ok in H as (st' & H & R). rewrite <- E.
    assert (L : (length (os_list st) <= length (os_names st))%nat) by (destruct I as (-> & _); rewrite map_length; lia).
    destruct (pass_walk _ 0 st st' [] (os_list st) I eq_refl eq_refl L H) as (I' & tk & Eo & W).
    destruct (IH st' l I' R) as (order & -> & T). exists (tk ++ order). split; [rewrite Eo, app_assoc; reflexivity|].
    rewrite map_app. econstructor; [|exact W|exact T]. rewrite E. discriminate.
Qed.

Lemma bundle_order : forall fuel b l, NoDup (module_names b) -> get_modules_ordered fuel b = Ok l ->
  taken_in_order (all_modules b) (map bm_mod l).
Proof.
  intros fuel b l N H. unfold get_modules_ordered, create_ordered_import_list in H.
  destruct (loop_order fuel (mkorder (b_modules b) (map bm_name (b_modules b)) (import_names (b_modules b)) []) l) as (order & -> & T); try assumption.
  split; [reflexivity|]. split; [reflexivity|]. exact N.
Qed.

(** The order is unique. *)
Lemma walk_unique : forall kept ahead tk left, walk kept ahead tk left -> forall tk' left', walk kept ahead tk' left' -> tk' = tk /\ left' = left.
Proof.
  intros kept ahead tk left W. induction W as [kept|kept m ahead tk left I W IH|kept m N|kept m n ahead tk left N W IH]; intros tk' left' V.
  - inversion V; subst; auto.
  - inversion V; subst; try contradiction. apply IH. assumption.
  - inversion V; subst; try contradiction. auto.
  - inversion V; subst; try contradiction. match goal with H : walk _ ahead _ _ |- _ => destruct (IH _ _ H) as (-> & ->) end. auto.
Qed.

Lemma order_unique : forall ms order, taken_in_order ms order -> forall order', taken_in_order ms order' -> order' = order.
Proof.
  intros ms order T. induction T as [|ms tk left order N W T IH]; intros order' T'; inversion T'; subst; try congruence.
  match goal with H : walk _ _ _ _ |- _ => destruct (walk_unique _ _ _ _ W _ _ H) as (-> & ->) end. f_equal. apply IH. assumption.
Qed.

(** It is an order of the same modules, importers first. *)
Lemma walk_perm : forall kept ahead tk left, walk kept ahead tk left -> Permutation (kept ++ ahead) (tk ++ left).
Proof.
  intros kept ahead tk left W. induction W as [kept|kept m ahead tk left I W IH|kept m N|kept m n ahead tk left N W IH].
  - rewrite app_nil_r. reflexivity.
  - rewrite <- app_assoc in IH. exact IH.
  - rewrite Permutation_app_comm. reflexivity.
  - rewrite <- app_assoc in IH. cbn [app] in IH |- *. rewrite <- IH. symmetry. apply Permutation_middle.
Qed.
Lemma order_perm : forall ms order, taken_in_order ms order -> Permutation ms order.
Proof.
  intros ms order T. induction T as [|ms tk left order N W T IH]; [constructor|]. apply walk_perm in W. cbn [app] in W.
  rewrite W. apply Permutation_app_head. exact IH.
Qed.

(** Modules that are the same but for the numbers of their enumerations. *)
Lemma same_imported : forall ms ms' m m', Forall2 same_module ms ms' -> same_module m m' -> (imported_in ms m <-> imported_in ms' m').
Proof.
  intros ms ms' m m' F S.
  assert (D : forall a a', same_module a a' -> (imports_module a m <-> imports_module a' m')).
  { intros a a' Sa. unfold imports_module. destruct S as (-> & _). destruct Sa as (_ & _ & -> & _). tauto. }
  split; intros (a & Ha & H).
  - destruct (Forall2_in_l _ _ _ _ _ _ F Ha) as (a' & Ha' & Sa). exists a'. split; [exact Ha'|]. apply (D a a' Sa). exact H.
  - destruct (Forall2_in_r _ _ _ _ _ _ F Ha) as (a' & Ha' & Sa). exists a'. split; [exact Ha'|]. apply (D a' a Sa). exact H.
Qed.

Lemma walk_same : forall kept' ahead' tk' left', walk kept' ahead' tk' left' -> forall kept ahead, Forall2 same_module kept kept' ->
  Forall2 same_module ahead ahead' -> exists tk left, walk kept ahead tk left /\ Forall2 same_module tk tk' /\ Forall2 same_module left left'.
Proof.
  intros kept' ahead' tk' left' W. induction W as [kept'|kept' m' ahead' tk' left' I W IH|kept' m' N|kept' m' n' ahead' tk' left' N W IH]; intros kept ahead Fk Fa.
  - inversion Fa; subst. exists [], kept. split; [constructor|]. split; [constructor|exact Fk].
  - inversion Fa as [|m ? ah ? Sm Fa']; subst. destruct (IH (kept ++ [m]) ah) as (tk & left & V & F1 & F2); [apply Forall2_app; auto|exact Fa'|].
    exists tk, left. split; [|auto]. apply walk_keep; [|exact V]. apply (same_imported _ (kept' ++ m' :: ahead') m m'); [apply Forall2_app; auto|exact Sm|exact I].
  - inversion Fa as [|m ? ah ? Sm Fa']; subst. inversion Fa'; subst. exists [m], kept. split; [|auto]. apply walk_last. intros I. apply N.
    apply (same_imported (kept ++ [m]) _ m m'); [apply Forall2_app; auto|exact Sm|exact I].
  - inversion Fa as [|m ? ah ? Sm Fa']; subst. inversion Fa' as [|n ? ah' ? Sn Fa'']; subst.
    destruct (IH (kept ++ [n]) ah') as (tk & left & V & F1 & F2); [apply Forall2_app; auto|exact Fa''|].
    exists (m :: tk), left. split; [|auto]. apply walk_take; [|exact V]. intros I. apply N.
    apply (same_imported (kept ++ m :: n :: ah') _ m m'); [apply Forall2_app; auto|exact Sm|exact I].
Qed.

Lemma order_same : forall ms' order', taken_in_order ms' order' -> forall ms, Forall2 same_module ms ms' ->
  exists order, taken_in_order ms order /\ Forall2 same_module order order'.
Proof.
  intros ms' order' T. induction T as [|ms' tk' left' order' N W T IH]; intros ms F.
  - inversion F; subst. exists []. split; constructor.
  - destruct (walk_same _ _ _ _ W [] ms (Forall2_nil _) F) as (tk & left & V & F1 & F2). destruct (IH left F2) as (order & T' & F').
    exists (tk ++ order). split; [|apply Forall2_app; assumption]. econstructor; [|exact V|exact T']. intros ->. inversion F; subst. congruence.
Qed.

(** ** One module, for c and cfs *)
Section Modules.
Variables (names : list string) (input : list module) (cmd : command).
Hypothesis Hg : Forall (fun m => grammatical m = true) input.
Hypothesis Hi : acyclic (imports_from input).
Hypothesis Hc : c_or_cfs names cmd.
Variable b : bundle.
Hypothesis Hb : build_from_config names input = Ok b.
Let C : config names input b := conj Hg Hb.

Lemma config_c : config_command names cmd.
Proof. destruct Hc as [->| ->]; [right; left|left]; reflexivity. Qed.

Section One.
Variables (bm : bmodule) (m : module).
Hypothesis Hbm : In bm (b_modules b).
Hypothesis Hm : In m input.
Hypothesis S : same_module m (bm_mod bm).

Lemma no_self : ~ In (bm_name bm) (map imp_module (mod_imports (bm_mod bm))).
Proof. intros X. apply Hi. eapply self_import_cyclic; eassumption. Qed.

Lemma here_sorted : forall fuel, acyclic (uses_local m) -> (length (definitions input) <= fuel)%nat -> exists sorted, sorted_definitions fuel (bm_mod bm) = Ok sorted.
Proof.
  intros fuel A F. destruct (definitions_ordered names input b bm fuel Hg Hb Hbm no_self) as (sorted & Hs & _); [| |eauto].
  - intros Cy. apply A. apply (cyclic_iff _ _ (same_uses_local _ _ S)). exact Cy.
  - assert (L := bundle_lengths names input b bm Hb Hbm). lia.
Qed.

Lemma here_stuck : forall fuel, cyclic (uses_local m) -> module_files fuel cmd b bm = OutOfFuel.
Proof.
  intros fuel Cy. assert (E : sorted_definitions fuel (bm_mod bm) = OutOfFuel).
  { apply (recursive_types_hang names input b bm fuel Hg Hb Hbm no_self). apply (cyclic_iff _ _ (same_uses_local _ _ S)). exact Cy. }
  destruct Hc as [->| ->]; cbn [module_files].
  - unfold c_module, c_cdata, module_cdata. rewrite E. reflexivity.
  - unfold cfs_module, cfs_cdata, module_cdata. rewrite E. reflexivity.
Qed.

Lemma here_suffices : forall fuel, (Datatypes.S (length (definitions input)) <= fuel)%nat -> proceeds cmd input m ->
  exists fl, module_files fuel cmd b bm = Ok fl.
Proof.
  intros fuel F (A & M & X). apply (module_files_ok names); [exact config_c|]. destruct (bundle_same names input b Hb) as (_ & SD).
  split; [apply here_sorted; [exact A|lia]|]. apply Forall_forall. intros d Hd. destruct d as [n c l|n c l|n c l|n t c]; cbn [convertible]; trivial.
  - assert (Hd' := proj2 (same_module_sequence _ _ S n c l) Hd).
    assert (Hin : In (DSequence n c l) (definitions input)) by (apply (in_definitions input m); assumption).
    split; [exact (sequence_nonempty input Hg _ _ _ Hin)|]. intros k Hk. split.
    + eapply (field_suffices names input b bm (DSequence n c l) k); try eassumption; [lia|].
      apply (has_c_type_sub _ _ (m_type k) SD). eauto.
    + intros Wk. destruct (m_with k) as [w|] eqn:Ew; [|congruence].
      destruct Hc as [E|E]; subst cmd; cbn [cmd_wch].
      * unfold c_with_components. rewrite Ew. eexists. reflexivity.
      * destruct X as (H1 & _). unfold cfs_with_components. rewrite Ew.
        assert (E := H1 n c l k w Hd' Hk Ew). apply (cfs_defines_ok_iff (c_name n) w) in E. destruct E as (x & ->). eexists. reflexivity.
  - destruct Hc as [E|E]; subst cmd; cbn [cmd_note]; [eexists; reflexivity|].
    destruct X as (_ & H2). apply (note_ok_iff names input Hg); [exact Hb|]. intros u Hu Us.
    destruct S as (_ & _ & _ & FS). apply (Accept_proofs.same_simple _ _ n t c FS) in Hd.
    destruct (H2 n t c u Hd Hu Us) as (w & Hw). exists w.
    eapply (simple_value_size names input Hg b n t c w Hb); [|exact Hw]. apply (in_definitions input m); assumption.
Qed.

Lemma here_ends : forall fuel, (Datatypes.S (length (definitions input)) <= fuel)%nat -> acyclic (uses_local m) -> module_files fuel cmd b bm <> OutOfFuel.
Proof.
  intros fuel F A. destruct (here_sorted fuel A ltac:(lia)) as (sorted & Hs).
  assert (X : forall inc note wch, (forall n t, note n t <> OutOfFuel) ->
     (forall n c ms k, In (DSequence n c ms) (mod_defs (bm_mod bm)) -> In k ms -> m_with k <> None -> wch (c_name n) k <> OutOfFuel) ->
     module_cdata fuel b bm inc note wch <> OutOfFuel).
  { intros inc note wch Hn Hw. unfold module_cdata. rewrite Hs. cbn [bind]. apply ends_bind; [|discriminate].
    destruct fuel as [|fuel]; [lia|]. apply convert_definitions_ends; [exact Hn|]. intros n c ms k Hd. apply (Hw n c ms k).
    apply (Permutation_in _ (sorted_perm _ _ _ Hs)). exact Hd. }
  destruct Hc as [E|E]; subst cmd; cbn [module_files].
  - unfold c_module. apply ends_bind; [|discriminate]. apply X; [discriminate|].
    intros n c ms k _ _ _. unfold c_with_components. destruct (m_with k); discriminate.
  - unfold cfs_module. apply ends_bind; [|discriminate]. apply X.
    + intros n t. unfold cfs_note. destruct (find _ _) as [(u, us)|]; [|discriminate]. apply ends_bind; [|discriminate].
      unfold simple_size. destruct t; try discriminate; apply base_size_ends.
    + intros n c ms k _ _ _. unfold cfs_with_components. destruct (m_with k); [|discriminate]. apply ends_bind; [apply cfs_defines_ends|discriminate].
Qed.
End One.
End Modules.

(** ** Whether there is a cycle *)
Lemma in_dec_list : forall A (P : A -> Prop), (forall x, P x \/ ~ P x) -> forall l, (exists x, In x l /\ P x) \/ (forall x, In x l -> ~ P x).
Proof.
  intros A P D. induction l as [|a l [(x & Hx & Px)|IH]]; [right; intros x []|left; exists x; split; [right|]; assumption|].
  destruct (D a) as [Pa|Na]; [left; exists a; split; [left; reflexivity|exact Pa]|]. right. intros x [<-|Hx]; auto.
Qed.

Lemma cyclic_dec : forall (R : string -> string -> Prop), (forall x y, R x y \/ ~ R x y) ->
  forall n l, (length l <= n)%nat -> (forall x, clos_trans string R x x -> In x l) -> cyclic R \/ acyclic R.
Proof.
  intros R D. induction n as [|n IH]; intros l L H.
  - destruct l; [|cbn in L; lia]. right. intros (x & Hx). destruct (H x Hx).
  - destruct l as [|a l]; [right; intros (x & Hx); destruct (H x Hx)|].
    assert (Dx : forall x, (forall y, In y (a :: l) -> ~ R y x) \/ exists y, In y (a :: l) /\ R y x).
    { intros x. destruct (in_dec_list _ (fun y => R y x) (fun y => D y x) (a :: l)); [right|left]; assumption. }
    destruct (in_dec_list _ (fun x => forall y, In y (a :: l) -> ~ R y x)) with (l := a :: l) as [(x & Hx & Nx)|Q].
    + intros x. destruct (Dx x) as [F|(y & Hy & F)]; [left; exact F|right; intros G; exact (G y Hy F)].
    + apply (IH (remove string_dec x (a :: l))).
      * assert (G := remove_length_lt string_dec (a :: l) x Hx). cbn [length] in G, L |- *. lia.
      * intros y Hy. apply in_in_remove; [|auto]. intros ->. destruct (cycle_prev _ _ Hy) as (z & Rz & Cz). exact (Nx z (H z Cz) Rz).
    + left. apply (finite_cycle _ (a :: l)); [discriminate|]. intros x Hx. destruct (Dx x) as [F|F]; [destruct (Q x Hx F)|exact F].
Qed.

Lemma pair_dec : forall (l : list (string * string)) x, In x l \/ ~ In x l.
Proof.
  intros l x. assert (D : forall a b : string * string, {a = b} + {a <> b}) by (decide equality; apply string_dec).
  destruct (in_dec D x l); auto.
Qed.

Lemma graph_dec : forall (R : string -> string -> Prop) (g : list (string * string)), (forall x y, R x y <-> In (x, y) g) -> cyclic R \/ acyclic R.
Proof.
  intros R g H. apply (cyclic_dec R) with (n := length (map fst g)) (l := map fst g); [|lia|].
  - intros x y. destruct (pair_dec g (x, y)) as [G|G]; [left|right; intros Q; apply G]; apply H; assumption.
  - intros x Hx. destruct (cycle_next _ _ Hx) as (z & Rz & _). apply H in Rz. apply (in_map fst) in Rz. exact Rz.
Qed.

Lemma imports_dec : forall ms, cyclic (imports_from ms) \/ acyclic (imports_from ms).
Proof.
  intros ms. apply (graph_dec _ (flat_map (fun m => map (fun it => (mod_name m, imp_module it)) (mod_imports m)) ms)).
  intros x y. rewrite in_flat_map. split.
  - intros (m & it & Hm & <- & Hit & <-). exists m. split; [exact Hm|]. apply in_map_iff. eauto.
  - intros (m & Hm & H). apply in_map_iff in H as (it & E & Hit). injection E as <- <-. exists m, it. auto.
Qed.

Definition used_here (m : module) (k : member) : list string :=
  match element (m_type k) with TName n => if in_dec string_dec n (defined_names m) then [n] else [] | _ => [] end.
Lemma uses_dec : forall m, cyclic (uses_local m) \/ acyclic (uses_local m).
Proof.
  intros m. apply (graph_dec _ (flat_map (fun d => flat_map (fun k => map (fun n => (def_name d, n)) (used_here m k)) (members_of d)) (mod_defs m))).
  assert (U : forall k n, In n (used_here m k) <-> element (m_type k) = TName n /\ In n (defined_names m)).
  { intros k n. unfold used_here. destruct (element (m_type k)) as [| | | | | |x]; try (split; [intros []|intros (Q & _); discriminate]).
    destruct (in_dec string_dec x (defined_names m)) as [I|I]; split.
    - intros [<-|[]]. auto.
    - intros (Q & _). injection Q as <-. left. reflexivity.
    - intros [].
    - intros (Q & J). injection Q as <-. contradiction. }
  intros x y. rewrite in_flat_map. split.
  - intros (d & k & Hd & <- & Hk & E & Hy). exists d. split; [exact Hd|]. apply in_flat_map. exists k. split; [exact Hk|].
    apply in_map_iff. exists y. split; [reflexivity|]. apply U. auto.
  - intros (d & Hd & H). apply in_flat_map in H as (k & Hk & H). apply in_map_iff in H as (n & Q & Hn). injection Q as <- <-.
    apply U in Hn as (E & I). exists d, k. auto.
Qed.

(** ** Whole runs *)
Section Runs.
Variables (names : list string) (input : list module) (cmd : command).
Hypothesis Hg : Forall (fun m => grammatical m = true) input.
Hypothesis Hc : c_or_cfs names cmd.

Theorem run_course : forall fuel, bundle_valid names input -> acyclic (imports_from input) ->
  (S (length input + length (definitions input)) <= fuel)%nat ->
  exists done left, taken_in_order input (done ++ left) /\ Forall (proceeds cmd input) done
    /\ ((left = [] /\ forall fs, snd (run fuel cmd input fs) = Ok tt)
        \/ (exists m r e, left = m :: r /\ acyclic (uses_local m) /\ ~ module_fits cmd input m /\ forall fs, snd (run fuel cmd input fs) = Err e)
        \/ (exists m r, left = m :: r /\ cyclic (uses_local m) /\ forall fs, snd (run fuel cmd input fs) = OutOfFuel))
    /\ (forall f, (exists m, In m done /\ file_of cmd m f) ->
         exists text, forall fs, folder_get (fst (run fuel cmd input fs)) f = Some text)
    /\ (forall f, ~ (exists m, In m done /\ file_of cmd m f) ->
         forall fs, folder_get (fst (run fuel cmd input fs)) f = folder_get fs f).
Proof.
  intros fuel V Hi Hf. assert (Hcc := config_c names cmd Hc).
  destruct (proj2 (bundle_accepted_iff names input Hg) V) as (b & Hb).
  destruct (modules_ordered names input b fuel Hb Hi ltac:(lia)) as (l & Hl & P & _).
  destruct (bundle_same names input b Hb) as (SM & _).
  assert (R : forall fs, run fuel cmd input fs = write_outcome fs (for_modules (module_files fuel cmd b) l [])).
  { intros fs. rewrite (run_config names) by exact Hcc. rewrite Hb. unfold generate_modules. rewrite Hl. reflexivity. }
  assert (Nd : NoDup (module_names b)) by (eapply config_module_names; eassumption).
  destruct (order_same _ _ (bundle_order fuel b l Nd Hl) input SM) as (order & T & Fo).
  destruct (for_modules (module_files fuel cmd b) l []) as [files res] eqn:E.
  assert (R1 : forall fs, fst (run fuel cmd input fs) = folder_write_all files fs) by (intros fs; rewrite R; reflexivity).
  assert (R2 : forall fs, snd (run fuel cmd input fs) = res) by (intros fs; rewrite R; reflexivity).
  destruct (for_modules_stops _ _ _ _ _ E) as (l1 & l2 & fss & -> & F & Ef & End). cbn [app] in Ef.
  assert (Fo' : Forall2 (fun m bm => same_module m (bm_mod bm)) order (l1 ++ l2)).
  { clear - Fo. revert Fo. generalize (l1 ++ l2) as bs. intros bs. revert order. induction bs as [|x bs IH]; intros order S; inversion S; subst; constructor; auto. }
  apply Forall2_app_inv_r in Fo'. destruct Fo' as (done & left & Fd & Fl & ->).
  assert (Inb : forall bm, In bm (l1 ++ l2) -> In bm (b_modules b)) by (intros bm; apply Permutation_in; exact P).
  assert (Ini : forall m, In m (done ++ left) -> In m input) by (intros m; apply Permutation_in; apply Permutation_sym; apply order_perm; exact T).
  assert (Pd : Forall (proceeds cmd input) done).
  { apply Forall_forall. intros m Hm. destruct (Forall2_in_l _ _ _ _ _ _ Fd Hm) as (bm & Hbm & Sm).
    destruct (Forall2_in_l _ _ _ _ _ _ F Hbm) as (fl & _ & Hfl).
    assert (Hbm' : In bm (b_modules b)) by (apply Inb; apply in_or_app; auto). assert (Hm' : In m input) by (apply Ini; apply in_or_app; auto). split.
    - intros Cy. assert (X := here_stuck names input cmd Hg Hi Hc b Hb bm m Hbm' Sm fuel Cy). congruence.
    - eapply (one_needs names input cmd Hg Hcc b Hb bm m); eassumption. }
  exists done, left. split; [exact T|]. split; [exact Pd|]. split; [|split].
  - destruct End as [(-> & ->)|(bm & l3 & -> & D)].
    + left. split; [inversion Fl; reflexivity|exact R2].
    + right. inversion Fl as [|m ? r ? Sm Fr]; subst.
      assert (Hbm : In bm (b_modules b)) by (apply Inb; apply in_or_app; right; left; reflexivity).
      assert (Hm : In m input) by (apply Ini; apply in_or_app; right; left; reflexivity).
      destruct (uses_dec m) as [Cy|A]; [right|left].
      * assert (X := here_stuck names input cmd Hg Hi Hc b Hb bm m Hbm Sm fuel Cy). exists m, r. split; [reflexivity|]. split; [exact Cy|].
        destruct D as [(e & D & _)|(_ & ->)]; [congruence|exact R2].
      * assert (X := here_ends names input cmd Hg Hi Hc b Hb bm m Hbm Sm fuel ltac:(lia) A). destruct D as [(e & D & ->)|(D & _)]; [|congruence].
        exists m, r, e. split; [reflexivity|]. split; [exact A|]. split; [|exact R2]. intros M.
        destruct (here_suffices names input cmd Hg Hi Hc b Hb bm m Hbm Hm Sm fuel ltac:(lia) (conj A M)) as (fl & Q). congruence.
  - intros f (m & Hm & Hfile). destruct (Forall2_in_l _ _ _ _ _ _ Fd Hm) as (bm & Hbm & Sm).
    destruct (Forall2_in_l _ _ _ _ _ _ F Hbm) as (fl & Hin & Hfl).
    assert (Hx : In f (map fst fl)).
    { eapply (one_files names input cmd Hg Hcc b Hb bm m); try eassumption. apply Inb. apply in_or_app. auto. }
    assert (Hy : In f (map fst files)).
    { rewrite Ef. apply in_map_iff in Hx. destruct Hx as (y & <- & Hy). apply in_map. apply in_concat. eauto. }
    destruct (dict_get f files) as [text|] eqn:G.
    + exists text. intros fs. rewrite R1, folder_get_all, G. reflexivity.
    + exfalso. apply dict_get_None in G. apply G. exact Hy.
  - intros f N fs. rewrite R1, folder_get_all.
    destruct (dict_get f files) as [text|] eqn:G; [|reflexivity]. exfalso. apply N.
    apply dict_get_In in G. rewrite Ef in G. apply in_concat in G. destruct G as (fl & Hin & Hx).
    destruct (Forall2_in_r _ _ _ _ _ _ F Hin) as (bm & Hbm & Hfl). destruct (Forall2_in_r _ _ _ _ _ _ Fd Hbm) as (m & Hm & Sm).
    exists m. split; [exact Hm|]. eapply (one_files names input cmd Hg Hcc b Hb bm m); try eassumption; [apply Inb; apply in_or_app; auto|].
    apply (in_map fst) in Hx. exact Hx.
Qed.

Lemma run_hangs_at : forall fuel fs, (S (length input + length (definitions input)) <= fuel)%nat -> snd (run fuel cmd input fs) = OutOfFuel ->
  bundle_valid names input /\ (cyclic (imports_from input) \/ exists done m, comes_to cmd input done m /\ cyclic (uses_local m)).
Proof.
  intros fuel fs Hf H. assert (Hcc := config_c names cmd Hc).
  assert (V : bundle_valid names input).
  { rewrite (run_config names) in H by exact Hcc. destruct (build_from_config names input) as [b|x|] eqn:B.
    - apply bundle_accepted_iff; eauto.
    - discriminate.
    - exfalso. exact (Ends_proofs.ends_config names input B). }
  split; [exact V|]. destruct (imports_dec input) as [Cy|A]; [left; exact Cy|right].
  destruct (run_course fuel V A Hf) as (done & left & T & Pd & [(_ & E)|[(m & r & e & _ & _ & _ & E)|(m & r & -> & Cy & _)]] & _).
  - rewrite E in H. discriminate.
  - rewrite E in H. discriminate.
  - exists done, m. split; [exists r; auto|exact Cy].
Qed.

Lemma comes_unique : forall done m done' m', comes_to cmd input done m -> ~ proceeds cmd input m -> comes_to cmd input done' m' -> ~ proceeds cmd input m' ->
  done = done' /\ m = m'.
Proof.
  intros done m done' m' (r & T & F) N (r' & T' & F') N'. assert (E := order_unique _ _ T _ T'). clear T T'.
  revert done' E F'. induction done as [|a done IH]; intros [|a' done'] E F'; cbn [app] in E; injection E as E1 E2; subst.
  - auto.
  - inversion F'; subst. contradiction.
  - inversion F; subst. contradiction.
  - inversion F; inversion F'; subst. destruct (IH ltac:(assumption) done' E2 ltac:(assumption)) as (-> & ->). auto.
Qed.

Lemma stuck_hangs : bundle_valid names input ->
  (cyclic (imports_from input) \/ exists done m, comes_to cmd input done m /\ cyclic (uses_local m)) ->
  forall fuel fs, snd (run fuel cmd input fs) = OutOfFuel.
Proof.
  intros V S fuel fs. assert (Hcc := config_c names cmd Hc).
  destruct (imports_dec input) as [Cy|A].
  { destruct (proj2 (bundle_accepted_iff names input Hg) V) as (b & Hb). rewrite (run_cyclic _ _ _ _ _ _ Hcc Hb Cy). reflexivity. }
  destruct S as [Cy|(done & m & Cm & Cy)]; [contradiction|].
  assert (Big : forall big, (Datatypes.S (length input + length (definitions input)) <= big)%nat -> snd (run big cmd input fs) = OutOfFuel).
  { intros big Hf. destruct (run_course big V A Hf) as (done' & left & T & Pd & Q & _).
    assert (Nm : ~ proceeds cmd input m) by (intros (X & _); contradiction).
    destruct Q as [(-> & E)|[(m' & r & e & -> & A' & Nf & E)|(m' & r & -> & Cy' & E)]]; [| |apply E].
    - exfalso. destruct Cm as (r & T' & _). assert (Q := order_unique _ _ T' _ T). rewrite app_nil_r in Q. subst done'.
      rewrite Forall_forall in Pd. apply Nm, Pd. apply in_or_app. right. left. reflexivity.
    - exfalso. destruct (comes_unique done m done' m' Cm Nm) as (_ & ->); [exists r; auto|intros (_ & X); contradiction|contradiction]. }
  destruct (le_ge_dec (Datatypes.S (length input + length (definitions input))) fuel) as [L|L]; [auto|].
  destruct (snd (run fuel cmd input fs)) as [x|x|] eqn:E; [| |reflexivity];
    (assert (W := run_more fuel _ cmd input fs L ltac:(rewrite E; discriminate)); assert (X := Big _ (le_n _)); rewrite W in X; congruence).
Qed.

Theorem hangs_iff : (forall fuel fs, snd (run fuel cmd input fs) = OutOfFuel) <->
  bundle_valid names input /\ (cyclic (imports_from input) \/ exists done m, comes_to cmd input done m /\ cyclic (uses_local m)).
Proof.
  split; [|intros (V & S); apply stuck_hangs; assumption]. intros H.
  exact (run_hangs_at _ [] (le_n _) (H _ [])).
Qed.

Theorem hangs_soon : forall fs, snd (run (S (length input + length (definitions input))) cmd input fs) = OutOfFuel ->
  forall fuel fs, snd (run fuel cmd input fs) = OutOfFuel.
Proof. intros fs H. apply hangs_iff. exact (run_hangs_at _ fs (le_n _) H). Qed.
End Runs.

(** ** There is an order exactly without cyclic imports *)
Section Cycle.
Variable P : module -> Prop.
Hypothesis HP : forall ms m, P m -> (forall a, P a -> In a ms) -> imported_in ms m.

Lemma walk_cycle : forall kept ahead tk left, walk kept ahead tk left -> (forall a, P a -> In a (kept ++ ahead)) -> forall a, P a -> In a left.
Proof.
  intros kept ahead tk left W. induction W as [kept|kept m ahead tk left I W IH|kept m N|kept m n ahead tk left N W IH]; intros H.
  - rewrite app_nil_r in H. exact H.
  - apply IH. rewrite <- app_assoc. exact H.
  - intros a Pa. destruct (in_app_or _ _ _ (H a Pa)) as [G|[<-|[]]]; [exact G|]. destruct (N (HP _ _ Pa H)).
  - apply IH. intros a Pa. rewrite <- app_assoc. destruct (in_app_or _ _ _ (H a Pa)) as [G|[<-|G]]; [apply in_or_app; left; exact G| |apply in_or_app; right; exact G].
    destruct (N (HP _ _ Pa H)).
Qed.

Lemma order_cycle : forall ms order, taken_in_order ms order -> (forall a, P a -> In a ms) -> forall a, ~ P a.
Proof.
  intros ms order T. induction T as [|ms tk left order N W T IH]; intros H a Pa; [exact (H a Pa)|].
  exact (IH (walk_cycle _ _ _ _ W H) a Pa).
Qed.
End Cycle.

Lemma order_acyclic : forall ms order, taken_in_order ms order -> acyclic (imports_from ms).
Proof.
  intros ms order T (x & Cx).
  set (P := fun m => In m ms /\ clos_trans string (imports_from ms) (mod_name m) (mod_name m)).
  assert (HP : forall l m, P m -> (forall a, P a -> In a l) -> imported_in l m).
  { intros l m (Hm & Cm) H. destruct (cycle_prev _ _ Cm) as (z & (a & it & Ha & Ez & Hit & Em) & Cz). exists a. split.
    - apply H. split; [exact Ha|]. rewrite Ez. exact Cz.
    - unfold imports_module. rewrite <- Em. apply in_map. exact Hit. }
  destruct (cycle_next _ _ Cx) as (z & (a & it & Ha & Ez & _) & _).
  apply (order_cycle P HP ms order T) with (a := a); [intros m (Hm & _); exact Hm|]. split; [exact Ha|]. rewrite Ez. exact Cx.
Qed.

Theorem order_exists : forall names input, Forall (fun m => grammatical m = true) input -> bundle_valid names input ->
  ((exists order, taken_in_order input order) <-> acyclic (imports_from input)).
Proof.
  intros names input Hg V. split; [intros (order & T); eapply order_acyclic; exact T|]. intros A.
  destruct (run_course names input (GenerateC names) Hg (or_introl eq_refl) _ V A (le_n _)) as (done & left & T & _). eauto.
Qed.

Theorem order_modelled : forall names input b fuel l, build_from_config names input = Ok b ->
  get_modules_ordered fuel b = Ok l ->
  exists order, taken_in_order input order /\ Forall2 same_module order (map bm_mod l)
    /\ Permutation input order /\ forall order', taken_in_order input order' -> order' = order.
Proof.
  intros names input b fuel l Hb Hl. assert (Nd : NoDup (module_names b)) by (eapply config_module_names; eassumption).
  destruct (bundle_same names input b Hb) as (SM & _).
  destruct (order_same _ _ (bundle_order fuel b l Nd Hl) input SM) as (order & T & F). exists order.
  split; [exact T|]. split; [exact F|]. split; [apply order_perm; exact T|]. apply order_unique. exact T.
Qed.
