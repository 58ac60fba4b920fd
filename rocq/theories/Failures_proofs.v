(** * What a run that fails leaves in the output folder *)
From Coq Require Import Permutation Relations ZifyBool ZifyNat ZifyN Lia.
From Verif Require Import Base PyNum PyStr Ast Size Processor Bundle Sorter CCommon GenCfs GenC GenBinary GenCosmos Main
  Lib_proofs Str_proofs Spec_Enum Enum_proofs Spec_Num Num_proofs Spec_Check Check_proofs Spec_Grammar Spec_Bundle Bundle_proofs Reject_proofs
  Name_proofs Accept_proofs Spec_Size Size_proofs Spec_Gen Gen_proofs Field_proofs Spec_Order Order_proofs Cdata_proofs Run_proofs Note_proofs
  Spec_Files Files_proofs Disk_proofs Spec_Layout Layout_proofs Spec_Cfs Cfs_proofs Spec_Binary Binary_proofs Packed_proofs Spec_Runs
  Runs_proofs Runs2_proofs Spec_Failures.
Open Scope string_scope.
Open Scope list_scope.

(** ** The conversion of a module ends *)

Lemma ends_bind : forall A B (r : result A) (f : A -> result B), r <> OutOfFuel -> (forall x, f x <> OutOfFuel) -> bind r f <> OutOfFuel.
Proof. intros A B [x|e|] f H G; cbn [bind]; [apply G|discriminate|congruence]. Qed.

Ltac ends := repeat match goal with
  | |- (let* _ := _ in _) <> OutOfFuel => apply ends_bind; [|intros]
  | |- Ok _ <> OutOfFuel => discriminate
  | |- Err _ <> OutOfFuel => discriminate
  | |- assert ?b _ <> OutOfFuel => destruct b; discriminate
  | |- (match ?x with _ => _ end) <> OutOfFuel => destruct x
  end.

Lemma map_direct_ends : forall t, map_direct t <> OutOfFuel.
Proof.
  intros t. unfold map_direct. destruct (get_c_type t) as [c|]; [|discriminate]. apply ends_bind.
  - unfold get_bit_size. ends.
  - intros w. ends.
Qed.

Lemma base_size_ends : forall t, base_size t <> OutOfFuel.
Proof. intros t. unfold base_size. destruct (get_c_type t) as [c|]; [|discriminate]. unfold get_bit_size. ends. Qed.

Lemma map_member_ends : forall fuel defs t, map_member (S fuel) defs t <> OutOfFuel.
Proof.
  intros fuel defs t. unfold map_member. destruct (mem _ _); [apply map_direct_ends|].
  destruct (String.eqb _ _); [discriminate|].
  destruct (resolve defs t) as [n u|n|x|] eqn:R; ends. cbn [member_size]. rewrite R. unfold enum_size, zmax. ends.
Qed.

Lemma convert_definitions_ends : forall fuel defs sds note wch,
  (forall n t, note n t <> OutOfFuel) ->
  forall l, (forall n c ms k, In (DSequence n c ms) l -> In k ms -> m_with k <> None -> wch (c_name n) k <> OutOfFuel) ->
  forall acc, convert_definitions (S fuel) defs sds note wch l acc <> OutOfFuel.
Proof.
  intros fuel defs sds note wch Hn. induction l as [|d l IH]; intros Hw acc; cbn [convert_definitions]; [discriminate|].
  apply ends_bind; [|intros x; apply IH; intros n c ms k Hd; apply (Hw n c ms k (or_intror Hd))].
  destruct d as [n c ms|n c ms|n c ms|n t c]; cbn [convert_definition]; try discriminate.
  - apply ends_bind; [|discriminate]. unfold convert_sequence. apply ends_bind; [|intros (fields, a); ends].
    assert (W := fun k => Hw n c ms k (or_introl eq_refl)). clear Hw IH. generalize (@nil cfield) as fields. generalize empty_cdata as a.
    induction ms as [|k ms IH]; intros a fields; cbn [convert_members]; [discriminate|].
    apply ends_bind.
    + unfold convert_member. apply ends_bind; [apply map_member_ends|]. intros cm. apply ends_bind; [|intros (((x1, x2), x3), x4); discriminate].
      destruct (find _ sds) as [sd|]; [|discriminate]. apply ends_bind; [apply map_direct_ends|discriminate].
    + intros ((f, sb), si). apply ends_bind.
      * destruct (m_with k) as [w|] eqn:E; [|discriminate]. apply ends_bind; [|discriminate]. apply W; [left; reflexivity|congruence].
      * intros a'. apply IH. intros k' Hk'. apply W. right. exact Hk'.
  - apply ends_bind; [apply Hn|discriminate].
Qed.

Lemma ident_ends : forall l id, ident_msg_id l id <> OutOfFuel.
Proof.
  induction l as [|[k v c] l IH]; intros id; cbn [ident_msg_id]; [discriminate|]. apply ends_bind; [|intros; apply IH].
  assert (A : as_int v <> OutOfFuel) by (destruct v; discriminate).
  repeat match goal with |- (if ?b then _ else _) <> _ => destruct b end; try discriminate; apply ends_bind; try exact A; discriminate.
Qed.

Lemma primary_ends : forall l id, primary_msg_id l id <> OutOfFuel.
Proof.
  induction l as [|[k v c] l IH]; intros id; cbn [primary_msg_id]; [discriminate|]. apply ends_bind; [|intros; apply IH].
  destruct (String.eqb k KEY_IDENT); [|discriminate]. destruct v; try discriminate. apply ident_ends.
Qed.

Lemma cfs_defines_ends : forall n w, cfs_defines n w <> OutOfFuel.
Proof.
  intros n. induction w as [c l IH] using clause_ind. cbn [cfs_defines].
  induction l as [|[k v cm] l IHl]; [discriminate|].
  apply ends_bind; [|intros ds; apply ends_bind; [|discriminate]].
  - destruct v as [z|f|b|w']; try discriminate. destruct (String.eqb k KEY_PRIMARY).
    + apply ends_bind; [apply primary_ends|discriminate].
    + apply (IH k w' cm (or_introl eq_refl)).
  - apply IHl. intros k' w' cm' H. apply (IH k' w' cm'). right. exact H.
Qed.

Lemma leaf_bytes_ends : forall e sp v, leaf_bytes e sp v <> OutOfFuel.
Proof.
  intros e sp v. unfold leaf_bytes, bit_to_bytes, pack. ends.
Qed.

Lemma clause_bytes_ends : forall e specs w n, clause_bytes e specs n w <> OutOfFuel.
Proof.
  intros e specs. induction w as [c l IH] using clause_ind. intros n. rewrite clause_bytes_eq. 
  induction l as [|[k v cm] l IHl]; cbn [items_bytes]; [discriminate|].
  apply ends_bind; [|intros ds; apply ends_bind; [|discriminate]].
  - cbn [item_bytes]. destruct (dict_get n specs) as [d|]; [|discriminate]. destruct (dict_get k d) as [sp|]; [|discriminate].
    destruct v as [z|f|b|w']; try apply leaf_bytes_ends. apply (IH k w' cm (or_introl eq_refl)).
  - apply IHl. intros k' w' cm' H. apply (IH k' w' cm'). right. exact H.
Qed.

(** ** One module *)

Section Modules.
Variables (names : list string) (input : list module) (cmd : command).
Hypothesis Hg : Forall (fun m => grammatical m = true) input.
Hypothesis WF : well_founded_input names input.
Hypothesis Hc : config_command names cmd.
Variable b : bundle.
Hypothesis Hb : build_from_config names input = Ok b.
Let C : config names input b := conj Hg Hb.
Let Ha : accepted input b := or_introl (ex_intro _ names Hb).

Section One.
Variables (bm : bmodule) (m : module).
Hypothesis Hbm : In bm (b_modules b).
Hypothesis Hm : In m input.
Hypothesis S : same_module m (bm_mod bm).

Lemma one_simple : forall n t c, In (DSimple n t c) (mod_defs (bm_mod bm)) <-> In (DSimple n t c) (mod_defs m).
Proof. intros n t c. destruct S as (_ & _ & _ & F). apply (Accept_proofs.same_simple _ _ n t c F). Qed.

Lemma one_needs : forall fuel fl, module_files fuel cmd b bm = Ok fl -> module_fits cmd input m.
Proof.
  intros fuel fl H. destruct (bundle_same names input b Hb) as (_ & SD).
  assert (D : forall d, In d (mod_defs (bm_mod bm)) ->
     convertible fuel (all_defs b) (simple_definition_list b bm) (cmd_note cmd b) (cmd_wch fuel cmd b bm) d).
  { assert (F := proj1 (module_files_ok names fuel cmd b bm Hc) (ex_intro _ fl H)). destruct F as (_ & F). rewrite Forall_forall in F. exact F. }
  assert (W : forall n c l k, In (DSequence n c l) (mod_defs m) -> In k l ->
     (exists f, field_for fuel (all_defs b) (simple_definition_list b bm) k f)
     /\ (m_with k <> None -> exists c, cmd_wch fuel cmd b bm (c_name n) k = Ok c)).
  { intros n c l k Hd Hk. apply (same_module_sequence _ _ S) in Hd. destruct (D _ Hd) as (_ & F). exact (F k Hk). }
  split.
  - intros n c l k Hd Hk. destruct (W n c l k Hd Hk) as ((f & Hf) & _). apply (has_c_type_sub _ _ (m_type k) SD).
    apply (same_module_sequence _ _ S) in Hd. eapply (field_needs names input b bm (DSequence n c l) k); try eassumption.
  - destruct Hc as [E|[E|(e & E)]]; clear H; subst cmd; [split| exact I|].
    + intros n c l k w Hd Hk Ew. destruct (W n c l k Hd Hk) as (_ & F). destruct (F ltac:(congruence)) as (c' & G).
      cbn [cmd_wch] in G. unfold cfs_with_components in G. rewrite Ew in G.
      apply bind_ok in G. destruct G as (x & G & _). apply (cfs_defines_ok_iff (c_name n) w). eauto.
    + intros n t c u Hd Hu Us. assert (Hd' := proj2 (one_simple n t c) Hd). destruct (D _ Hd') as (s & Hs). cbn [cmd_note] in Hs.
      destruct (proj1 (note_ok_iff names input Hg b n t Hb) (ex_intro _ s Hs) u Hu Us) as (w & Hw). exists w.
      eapply (simple_value_size names input Hg b n t c w Hb); [|exact Hw]. apply (in_definitions input m); assumption.
    + intros n c l k w Hd Hk Ew. destruct (W n c l k Hd Hk) as (_ & F). destruct (F ltac:(congruence)) as (c' & G).
      cbn [cmd_wch] in G. unfold bin_with_components in G. rewrite Ew in G.
      apply bind_ok in G. destruct G as (specs & Hs & G). apply bind_ok in G. destruct G as (bs & Hbs & _). split.
      * intros n' c2 l' k' Hd' Hk' Hw'. assert (Hd2 := proj1 (same_module_sequence _ _ S n' c2 l') Hd').
        destruct (proj1 (sequence_specs_ok fuel (all_defs b) (mod_defs (bm_mod bm))) (ex_intro _ specs Hs) n' c2 l' k' Hd2 Hk' Hw') as (x & Hx).
        exists x. apply (member_bits input b Hg Ha (DSequence n' c2 l') k' fuel x); try assumption; [|reflexivity].
        apply (in_definitions input m); assumption.
      * assert (Hok := clause_ok input Hg m n c l k w Hm Hd Hk Ew).
        destruct e as [e'|]; [|exfalso; exact (no_endianness _ _ _ _ Hok Hbs)].
        exists e', (concat bs). split; [reflexivity|].
        eapply (clause_sound input b Hg Ha (mod_defs (bm_mod bm)) (mod_defs m)); try eassumption.
        -- intros n' c2 ms Hx. apply (in_definitions input m); [exact Hm|]. apply (same_module_sequence _ _ S). exact Hx.
        -- intros n' c2 ms Hx. apply (same_module_sequence _ _ S). exact Hx.
        -- assert (Hvd := accepted_modules_valid _ _ Hg Ha).
           destruct (definitions_types input (DSequence n c l) k Hg Hvd) as (Q & _); [apply (in_definitions input m); assumption|exact Hk|exact Q].
Qed.

Lemma one_sorted : forall fuel, (length (definitions input) <= fuel)%nat -> exists sorted, sorted_definitions fuel (bm_mod bm) = Ok sorted.
Proof.
  intros fuel F. destruct (definitions_ordered names input b bm fuel Hg Hb Hbm) as (sorted & Hs & _); [| | |eauto].
  - intros X. apply (wf_imports _ _ WF). eapply self_import_cyclic; eassumption.
  - intros Cy. apply (wf_types _ _ WF m Hm). apply (cyclic_iff _ _ (same_uses_local _ _ S)). exact Cy.
  - assert (L := bundle_lengths names input b bm Hb Hbm). lia.
Qed.

Lemma one_suffices : forall fuel, (Datatypes.S (length (definitions input)) <= fuel)%nat -> module_fits cmd input m ->
  exists fl, module_files fuel cmd b bm = Ok fl.
Proof.
  intros fuel F (M & X). apply (module_files_ok names); [exact Hc|]. destruct (bundle_same names input b Hb) as (_ & SD).
  split; [apply one_sorted; lia|]. apply Forall_forall. intros d Hd. destruct d as [n c l|n c l|n c l|n t c]; cbn [convertible]; trivial.
  - assert (Hd' := proj2 (same_module_sequence _ _ S n c l) Hd).
    assert (Hi : In (DSequence n c l) (definitions input)) by (apply (in_definitions input m); assumption).
    split; [exact (sequence_nonempty input Hg _ _ _ Hi)|]. intros k Hk. split.
    + eapply (field_suffices names input b bm (DSequence n c l) k); try eassumption; [lia|].
      apply (has_c_type_sub _ _ (m_type k) SD). eauto.
    + intros Wk. destruct (m_with k) as [w|] eqn:Ew; [|congruence].
      destruct Hc as [E|[E|(e & E)]]; subst cmd; cbn [cmd_wch].
      * destruct X as (H1 & _). unfold cfs_with_components. rewrite Ew.
        assert (E := H1 n c l k w Hd' Hk Ew). apply (cfs_defines_ok_iff (c_name n) w) in E. destruct E as (x & ->). eexists. reflexivity.
      * unfold c_with_components. rewrite Ew. eexists. reflexivity.
      * unfold bin_with_components. rewrite Ew. destruct (X n c l k w Hd' Hk Ew) as (B1 & e' & im & -> & CI).
        assert (Hs : exists specs, sequence_specs fuel (all_defs b) (mod_defs (bm_mod bm)) = Ok specs).
        { apply sequence_specs_ok. intros n' c' ms k' Hx Hk' Hw'. apply (same_module_sequence _ _ S) in Hx.
          destruct (B1 n' c' ms k' Hx Hk' Hw') as (x & X'). exists x.
          destruct WF as [V PI PT].
          apply (size_found names input b Hg Hb V PI PT n' c' ms k' x fuel); try assumption. apply (in_definitions input m); assumption. }
        destruct Hs as (specs & Hs). rewrite Hs. cbn [bind].
        destruct (clause_complete input b Hg Ha (bv_names _ _ (wf_valid _ _ WF)) (mod_defs (bm_mod bm)) (mod_defs m) fuel specs e') with (w := w) (t := m_type k) (b := im)
          as (bs & ->); try assumption.
        -- intros n' c' ms. split; apply (same_module_sequence _ _ S).
        -- intros n' c' ms. apply (in_definitions input m); assumption.
        -- eapply clause_ok; eassumption.
        -- eexists. reflexivity.
  - destruct Hc as [E|[E|(e & E)]]; subst cmd; cbn [cmd_note].
    + destruct X as (_ & H2). apply (note_ok_iff names input Hg); [exact Hb|]. intros u Hu Us. apply one_simple in Hd.
      destruct (H2 n t c u Hd Hu Us) as (w & Hw). exists w.
      eapply (simple_value_size names input Hg b n t c w Hb); [|exact Hw]. apply (in_definitions input m); assumption.
    + eexists. reflexivity.
    + unfold bin_note. destruct (mem n _); eexists; reflexivity.
Qed.

Lemma size_ends : forall n c l k fuel, In (DSequence n c l) (definitions input) -> In k l ->
  (Datatypes.S (length (definitions input)) <= fuel)%nat -> member_size fuel (all_defs b) (m_type k) <> OutOfFuel.
Proof.
  intros n c l k fuel Hd Hk F. destruct fuel as [|fuel]; [lia|]. destruct WF as [V PI PT].
  destruct (member_size_step input b Hg Ha _ k fuel Hd Hk) as [(n' & c' & l' & Et & Hl & ->)|(_ & E & _)]; [|exact E].
  destruct (sequence_size_decided input b n' c' l' fuel Hg Ha (processable_nonrecursive names input Hg V PI PT) Hl ltac:(lia)) as [(ls & _ & ->)|((e & ->) & _)]; discriminate.
Qed.

Lemma one_ends : forall fuel, (Datatypes.S (length (definitions input)) <= fuel)%nat -> module_files fuel cmd b bm <> OutOfFuel.
Proof.
  intros fuel F. destruct (one_sorted fuel ltac:(lia)) as (sorted & Hs).
  assert (X : forall inc note wch, (forall n t, note n t <> OutOfFuel) ->
     (forall n c ms k, In (DSequence n c ms) (mod_defs (bm_mod bm)) -> In k ms -> m_with k <> None -> wch (c_name n) k <> OutOfFuel) ->
     module_cdata fuel b bm inc note wch <> OutOfFuel).
  { intros inc note wch Hn Hw. unfold module_cdata. rewrite Hs. cbn [bind]. apply ends_bind; [|discriminate].
    destruct fuel as [|fuel]; [lia|]. apply convert_definitions_ends; [exact Hn|]. intros n c ms k Hd. apply (Hw n c ms k).
    apply (Permutation_in _ (sorted_perm _ _ _ Hs)). exact Hd. }
  destruct Hc as [E|[E|(e & E)]]; subst cmd; cbn [module_files].
  - unfold cfs_module. apply ends_bind; [|discriminate]. apply X.
    + intros n t. unfold cfs_note. destruct (find _ _) as [(u, us)|]; [|discriminate]. apply ends_bind; [|discriminate].
      unfold simple_size. destruct t; try discriminate; apply base_size_ends.
    + intros n c ms k _ _ _. unfold cfs_with_components. destruct (m_with k); [|discriminate]. apply ends_bind; [apply cfs_defines_ends|discriminate].
  - unfold c_module. apply ends_bind; [|discriminate]. apply X; [discriminate|].
    intros n c ms k _ _ _. unfold c_with_components. destruct (m_with k); discriminate.
  - unfold bin_module. apply ends_bind; [|discriminate]. apply X.
    + intros n t. unfold bin_note. destruct (mem n _); discriminate.
    + intros n c ms k _ _ _. unfold bin_with_components. destruct (m_with k) as [w|]; [|discriminate]. apply ends_bind.
      * assert (Y : forall l, incl l (mod_defs (bm_mod bm)) -> sequence_specs fuel (all_defs b) l <> OutOfFuel).
        { induction l as [|d l IH]; intros Il; cbn [sequence_specs]; [discriminate|].
          assert (IH' : sequence_specs fuel (all_defs b) l <> OutOfFuel) by (apply IH; intros x Hx; apply Il; right; exact Hx).
          destruct d as [n' c' ms'|n' c' ms'|n' c' ms'|n' t' c']; try exact IH'.
          apply ends_bind; [|intros s; apply ends_bind; [exact IH'|discriminate]].
          assert (Hd : In (DSequence n' c' ms') (definitions input)).
          { apply (in_definitions input m); [exact Hm|]. apply (same_module_sequence _ _ S). apply Il. left. reflexivity. }
          assert (Z : forall l', incl l' ms' -> member_specs fuel (all_defs b) l' <> OutOfFuel).
          { induction l' as [|k' l' IHl]; intros Il'; cbn [member_specs]; [discriminate|].
            assert (IHl' : member_specs fuel (all_defs b) l' <> OutOfFuel) by (apply IHl; intros x Hx; apply Il'; right; exact Hx).
            destruct (m_with k'); [exact IHl'|]. apply ends_bind; [|intros s; apply ends_bind; [exact IHl'|discriminate]].
            eapply size_ends; [exact Hd| |exact F]. apply Il'. left. reflexivity. }
          apply Z. apply incl_refl. }
        apply Y. apply incl_refl.
      * intros specs. apply ends_bind; [apply clause_bytes_ends|discriminate].
Qed.

(** Its files. *)
Lemma one_files : forall fuel fl, module_files fuel cmd b bm = Ok fl -> forall f, In f (map fst fl) <-> file_of cmd m f.
Proof.
  intros fuel fl H f.
  assert (En : bm_name bm = mod_name m) by (unfold bm_name; apply S).
  destruct Hc as [E|[E|(e & E)]]; subst cmd; cbn [module_files] in H; cbn [file_of].
  - rewrite (cfs_file_names _ _ _ _ H), En. cbn [In]. split; intros [Q|[Q|[]]] || intros [Q|Q]; subst f; auto.
  - rewrite (c_file_names _ _ _ _ H), En. cbn [In]. split; intros [Q|[Q|[]]] || intros [Q|Q]; subst f; auto.
  - unfold bin_module in H. apply bind_ok in H. destruct H as (c & H & Q). injection Q as <-.
    apply module_collects in H; [|apply bin_wch_includes].
    destruct H as (sorted & css & iss & Hs & F & _ & _ & _ & _ & _ & _ & B).
    assert (P := sorted_perm _ _ _ Hs).
    assert (Nd : NoDup (map def_name sorted)).
    { apply (Permutation_NoDup (Permutation_sym (Permutation_map def_name P))). eapply config_local_nodup; eassumption. }
    assert (Cap : forall d, In d sorted -> is_name_capital (def_name d) = true).
    { intros d Hd. eapply config_capital; [exact C|]. apply in_all_defs. exists bm. split; [exact Hbm|].
      apply (Permutation_in _ P). exact Hd. }
    assert (Nl : NoDup (map (fun d => lowerize (c_name (def_name d))) sorted)).
    { clear - Nd Cap. induction sorted as [|d l IH]; simpl; [constructor|]. simpl in Nd. inversion Nd as [|? ? N1 N2]; subst.
      constructor; [|apply IH; [exact N2|intros x Hx; apply Cap; right; exact Hx]].
      intros G. apply in_map_iff in G. destruct G as (x & E & Hx). apply N1.
      apply lower_c_name_inj in E; [|apply Cap; right; exact Hx|apply Cap; left; reflexivity].
      rewrite <- E. apply in_map. exact Hx. }
    destruct (bin_cdata_binary _ _ _ _ _ _ _ F Nl B) as (B' & _).
    assert (K : forall key, In key (map fst (cd_binary c)) <->
        exists d, In d sorted /\ clauses_of d <> [] /\ key = lowerize (c_name (def_name d))).
    { intros key. rewrite B'. clear - F. induction F as [|d cs ds css G F IH]; cbn [flat_map map].
      { split; [intros []|intros (d & [] & _)]. }
      rewrite map_app, in_app_iff, IH. destruct (bin_clause_binary _ _ _ _ _ _ G) as (E1 & E2).
      assert (Z : In key (map fst (clause_binary cs)) <-> clauses_of d <> [] /\ key = lowerize (c_name (def_name d))).
      { assert (GF := handled_clause _ _ _ G). unfold handled in G. inversion G as [Q1 Q2|k c' ks cs' G1 G2 Q1 Q2]; subst.
        - rewrite E1. cbn. tauto.
        - split.
          + intros Hin. split; [discriminate|]. destruct E2 as [E2|(bs & E2)]; rewrite E2 in Hin; [destruct Hin|]. destruct Hin as [<-|[]]. reflexivity.
          + intros (_ & ->). destruct E2 as [E2|(bs & E2)]; [|rewrite E2; left; reflexivity]. exfalso. revert E1. rewrite E2.
            assert (GG : forall c2, In c2 (c' :: cs') -> cd_binary c2 <> []).
            { intros c2 Hc2. rewrite Forall_forall in GF. destruct (GF c2 Hc2) as (k3 & _ & Hk3 & H3).
              destruct (bin_wch_binary _ _ _ _ _ _ _ H3 Hk3) as (bs & ->). discriminate. }
            intros E. symmetry in E. revert E. clear - GG. assert (L := exists_last (l := c' :: cs')). destruct L as (l & x & L); [discriminate|]. rewrite L in *.
            rewrite map_app. cbn [map]. rewrite last_last. apply GG. apply in_or_app. right. left. reflexivity. }
      rewrite Z. split.
      - intros [(N & ->)|(d' & Hd' & R)]; [exists d|exists d']; (split; [|tauto]); [left; reflexivity|right; exact Hd'].
      - intros (d' & [<-|Hd'] & R); [left; exact R|right; eauto]. }
    cbn [print_to_file is_stored_data is_binary app]. rewrite map_cons, map_map. cbn [fst In].
    change (bin_filename (bm_name bm)) with (c_name (bm_name bm)). rewrite En.
    split.
    + intros [<-|Hf]; [left; reflexivity|right]. apply in_map_iff in Hf. destruct Hf as ((key, bs) & <- & Hf). cbn [fst].
      apply (in_map fst) in Hf. cbn [fst] in Hf. apply K in Hf. destruct Hf as (d & Hd & N & ->).
      apply (Permutation_in _ P) in Hd. destruct d as [n c' l|n c' l|n c' l|n t c']; try (exfalso; apply N; reflexivity).
      cbn [clauses_of] in N. destruct (filter _ l) as [|k r] eqn:Ef; [congruence|].
      assert (Hk : In k (filter has_clause l)) by (rewrite Ef; left; reflexivity).
      apply filter_In in Hk. destruct Hk as (Hk & Wk). exists n, c', l, k. split; [apply (same_module_sequence _ _ S); exact Hd|].
      split; [exact Hk|]. split; [|reflexivity]. unfold has_clause in Wk. destruct (m_with k); [intros Q; discriminate Q|discriminate].
    + intros [->|(n & c' & l & k & Hd & Hk & Wk & ->)]; [left; reflexivity|right].
      assert (Hin : In (lowerize (c_name n)) (map fst (cd_binary c))).
      { apply K. exists (DSequence n c' l). split; [apply (Permutation_in _ (Permutation_sym P)); apply (same_module_sequence _ _ S); exact Hd|].
        split; [|reflexivity]. cbn [clauses_of]. intros Q.
        assert (G : In k (filter has_clause l)).
        { apply filter_In. split; [exact Hk|]. unfold has_clause. destruct (m_with k); [reflexivity|congruence]. }
        rewrite Q in G. destruct G. }
      apply in_map_iff in Hin. destruct Hin as ((key & bs) & E & Hin). cbn [fst] in E. subst key.
      apply in_map_iff. exists (lowerize (c_name n), bs). split; [reflexivity|exact Hin].
Qed.
End One.
End Modules.

(** ** The loop over the modules *)

Lemma for_modules_stops : forall f l w files r, for_modules f l w = (files, r) ->
  exists l1 l2 fss, l = l1 ++ l2 /\ Forall2 (fun m fs => f m = Ok fs) l1 fss /\ files = w ++ concat fss
    /\ ((l2 = [] /\ r = Ok tt)
        \/ exists m l3, l2 = m :: l3 /\ ((exists e, f m = Err e /\ r = Err e) \/ (f m = OutOfFuel /\ r = OutOfFuel))).
Proof.
  intros f. induction l as [|m l IH]; intros w files r H; cbn [for_modules] in H.
  - injection H as <- <-. exists [], [], []. split; [reflexivity|]. split; [constructor|]. split; [cbn [concat]; rewrite app_nil_r; reflexivity|]. left. auto.
  - destruct (f m) as [fs|e|] eqn:E.
    + apply IH in H. destruct H as (l1 & l2 & fss & -> & F & -> & H). exists (m :: l1), l2, (fs :: fss).
      split; [reflexivity|]. split; [constructor; assumption|]. split; [cbn [concat]; rewrite app_assoc; reflexivity|exact H].
    + injection H as <- <-. exists [], (m :: l), []. split; [reflexivity|]. split; [constructor|]. split; [cbn [concat]; rewrite app_nil_r; reflexivity|].
      right. exists m, l. split; [reflexivity|]. left. eauto.
    + injection H as <- <-. exists [], (m :: l), []. split; [reflexivity|]. split; [constructor|]. split; [cbn [concat]; rewrite app_nil_r; reflexivity|].
      right. exists m, l. split; [reflexivity|]. right. auto.
Qed.

Lemma Forall2_permuted : forall A B (R : A -> B -> Prop) l l', Permutation l l' -> forall a, Forall2 R a l ->
  exists a', Permutation a a' /\ Forall2 R a' l'.
Proof.
  intros A B R l l' P. induction P as [|x l l' P IH|x y l|l l' l'' P1 IH1 P2 IH2]; intros a F.
  - inversion F. subst. exists []. split; constructor.
  - inversion F as [|u ? us ? H G]; subst. destruct (IH us G) as (a' & Pa & Fa). exists (u :: a'). split; [constructor; exact Pa|constructor; assumption].
  - inversion F as [|u ? us ? H G]; subst. inversion G as [|v ? vs ? H' G']; subst. exists (v :: u :: vs).
    split; [apply perm_swap|]. constructor; [|constructor]; assumption.
  - destruct (IH1 a F) as (a1 & Q1 & F1). destruct (IH2 a1 F1) as (a2 & Q2 & F2). exists a2. split; [eapply perm_trans; eassumption|exact F2].
Qed.

Lemma run_leaves : forall names cmd input fuel, config_command names cmd ->
  Forall (fun m => grammatical m = true) input -> well_founded_input names input ->
  (S (length input + length (definitions input)) <= fuel)%nat ->
  exists done left, Permutation input (done ++ left)
    /\ Forall (module_fits cmd input) done
    /\ (forall a b, In a input -> In b done -> imports_module a b -> In a done)
    /\ ((left = [] /\ forall fs, snd (run fuel cmd input fs) = Ok tt)
        \/ exists m r e, left = m :: r /\ ~ module_fits cmd input m
             /\ (forall a, In a input -> imports_module a m -> In a done)
             /\ forall fs, snd (run fuel cmd input fs) = Err e)
    /\ (forall f, (exists m, In m done /\ file_of cmd m f) ->
         exists text, forall fs, folder_get (fst (run fuel cmd input fs)) f = Some text)
    /\ (forall f, ~ (exists m, In m done /\ file_of cmd m f) ->
         forall fs, folder_get (fst (run fuel cmd input fs)) f = folder_get fs f).
Proof.
  intros names cmd input fuel Hc Hg WF Hf.
  destruct (proj2 (bundle_accepted_iff names input Hg) (wf_valid _ _ WF)) as (b & Hb).
  destruct (modules_ordered names input b fuel Hb (wf_imports _ _ WF) ltac:(lia)) as (l & Hl & P & Ord).
  destruct (bundle_same names input b Hb) as (S & _). 
  assert (R : forall fs, run fuel cmd input fs = write_outcome fs (for_modules (module_files fuel cmd b) l [])).
  { intros fs. rewrite (run_config names) by exact Hc. rewrite Hb. unfold generate_modules. rewrite Hl. reflexivity. }
  destruct (for_modules (module_files fuel cmd b) l []) as [files res] eqn:E.
  assert (R1 : forall fs, fst (run fuel cmd input fs) = folder_write_all files fs) by (intros fs; rewrite R; reflexivity).
  assert (R2 : forall fs, snd (run fuel cmd input fs) = res) by (intros fs; rewrite R; reflexivity).
  destruct (for_modules_stops _ _ _ _ _ E) as (l1 & l2 & fss & -> & F & Ef & End). cbn [app] in Ef.
  assert (S' : Forall2 (fun m bm => same_module m (bm_mod bm)) input (b_modules b)).
  { clear - S. revert S. generalize (b_modules b) as bs. intros bs. revert input. induction bs as [|x bs IH]; intros input S; inversion S; subst; constructor; auto. }
  destruct (Forall2_permuted _ _ _ _ _ (Permutation_sym P) _ S') as (a & Pa & Fa).
  apply Forall2_app_inv_r in Fa. destruct Fa as (done & left & Fd & Fl & ->).
  assert (Inb : forall bm, In bm (l1 ++ l2) -> In bm (b_modules b)) by (intros bm; apply Permutation_in; exact P).
  assert (Ini : forall m, In m (done ++ left) -> In m input) by (intros m; apply Permutation_in; apply Permutation_sym; exact Pa).
  (* importers come first *)
  assert (Fdl : Forall2 (fun m bm => same_module m (bm_mod bm)) (done ++ left) (l1 ++ l2)) by (apply Forall2_app; assumption).
  assert (Ld : length done = length l1) by (eapply Forall2_length; exact Fd).
  assert (First : forall a x j, In a input -> nth_error (done ++ left) j = Some x -> (j <= length done)%nat -> imports_module a x -> In a done).
  { intros a' x j Ha' Hx Hj Im. apply (Permutation_in _ Pa) in Ha'. apply In_nth_error in Ha'. destruct Ha' as (i & Hi).
    assert (Nth : forall i m, nth_error (done ++ left) i = Some m -> exists bm, nth_error (l1 ++ l2) i = Some bm /\ same_module m (bm_mod bm)).
    { clear - Fdl. revert Fdl. generalize (done ++ left) as u, (l1 ++ l2) as v. intros u v F. induction F as [|p q u v H F IH]; intros [|i] m Hm; try discriminate.
      - injection Hm as ->. exists q. auto.
      - apply IH. exact Hm. }
    destruct (Nth i a' Hi) as (bi & Bi & Si). destruct (Nth j x Hx) as (bj & Bj & Sj).
    assert (L : (i < j)%nat).
    { apply (Ord i j bi bj Bi Bj). unfold bm_name. destruct Sj as (-> & _). destruct Si as (_ & _ & -> & _). exact Im. }
    rewrite nth_error_app1 in Hi by lia. eapply nth_error_In. exact Hi. }
  exists done, left. split; [exact Pa|]. split; [|split; [|split; [|split]]].
  - apply Forall_forall. intros m Hm. destruct (Forall2_in_l _ _ _ _ _ _ Fd Hm) as (bm & Hbm & Sm).
    destruct (Forall2_in_l _ _ _ _ _ _ F Hbm) as (fl & _ & Hfl).
    eapply (one_needs names input cmd Hg Hc b Hb bm m); try eassumption; [apply Inb|apply Ini]; apply in_or_app; auto.
  - intros a' x Ha' Hx Im. apply In_nth_error in Hx. destruct Hx as (j & Hj).
    assert (Lj : (j < length done)%nat) by (apply nth_error_Some; congruence).
    apply (First a' x j Ha'); [rewrite nth_error_app1 by exact Lj; exact Hj|lia|exact Im].
  - destruct End as [(-> & ->)|(bm & l3 & -> & D)].
    + left. split; [inversion Fl; reflexivity|exact R2].
    + right. inversion Fl as [|m ? r ? Sm Fr]; subst.
      assert (Hbm : In bm (b_modules b)) by (apply Inb; apply in_or_app; right; left; reflexivity).
      assert (Hm : In m input) by (apply Ini; apply in_or_app; right; left; reflexivity).
      destruct D as [(e & D & ->)|(D & ->)].
      * exists m, r, e. split; [reflexivity|]. split; [|split; [|exact R2]].
        -- intros M. destruct (one_suffices names input cmd Hg WF Hc b Hb bm m Hbm Hm Sm fuel ltac:(lia) M) as (fl & Q). congruence.
        -- intros a' Ha' Im. apply (First a' m (length done) Ha'); [|lia|exact Im]. rewrite nth_error_app2, Nat.sub_diag by lia. reflexivity.
      * exfalso. exact (one_ends names input cmd Hg WF Hc b Hb bm m Hbm Hm Sm fuel ltac:(lia) D).
  - intros f (m & Hm & Hfile). destruct (Forall2_in_l _ _ _ _ _ _ Fd Hm) as (bm & Hbm & Sm).
    destruct (Forall2_in_l _ _ _ _ _ _ F Hbm) as (fl & Hin & Hfl).
    assert (Hx : In f (map fst fl)).
    { eapply (one_files names input cmd Hg Hc b Hb bm m); try eassumption. apply Inb. apply in_or_app. auto. }
    assert (Hy : In f (map fst files)).
    { rewrite Ef. apply in_map_iff in Hx. destruct Hx as (y & <- & Hy). apply in_map. apply in_concat. eauto. }
    destruct (dict_get f files) as [text|] eqn:G.
    + exists text. intros fs. rewrite R1, folder_get_all, G. reflexivity.
    + exfalso. apply dict_get_None in G. apply G. exact Hy.
  - intros f N fs. rewrite R1, folder_get_all.
    destruct (dict_get f files) as [text|] eqn:G; [|reflexivity]. exfalso. apply N.
    apply dict_get_In in G. rewrite Ef in G. apply in_concat in G. destruct G as (fl & Hin & Hx).
    destruct (Forall2_in_r _ _ _ _ _ _ F Hin) as (bm & Hbm & Hfl). destruct (Forall2_in_r _ _ _ _ _ _ Fd Hbm) as (m & Hm & Sm).
    exists m. split; [exact Hm|]. eapply (one_files names input cmd Hg Hc b Hb bm m); try eassumption; [apply Inb; apply in_or_app; auto|].
    apply (in_map fst) in Hx. exact Hx.
Qed.

Lemma cosmos_untouched : forall fuel m msgs t input fs fs' r,
  run fuel (GenerateCosmos m msgs t) input fs = (fs', r) -> r <> Ok tt -> fs' = fs.
Proof.
  intros fuel m msgs t input fs fs' r H N. cbn [run] in H. unfold with_bundle in H.
  destruct (build_from_cosmos_config input) as [b|e|]; try (injection H as <- _; reflexivity).
  destruct (generate_cosmos fuel b m msgs t) as [f|e|]; injection H as <- <-; [congruence|reflexivity|reflexivity].
Qed.
