(** * C structs and COSMOS packets side by side *)
From Coq Require Import ZifyBool ZifyNat ZifyN.
From Verif Require Import Base PyNum PyStr Ast Size Processor Bundle Sorter CCommon GenCosmos Main Lib_proofs Str_proofs
  Spec_Enum Spec_Num Spec_Check Spec_Grammar Spec_Bundle Spec_Size Spec_Gen Spec_Cosmos Spec_Packed Enum_proofs
  Num_proofs Check_proofs Bundle_proofs Accept_proofs Name_proofs Gen_proofs Size_proofs Layout_proofs Field_proofs
  Cosmos_proofs Cosmos_text_proofs.
Open Scope string_scope.
Open Scope Z_scope.

(** ** Enumerations *)

Section Parsed.
Variables (names : list string) (input : list module) (b : bundle).
Hypothesis C : config names input b.

Lemma parsed_enum : forall n c l, In (DEnumerated n c l) (all_defs b) ->
  map number l = upto (length l) /\ l <> []
  /\ exists w, enum_size l = Ok w /\ least_width w (Z.of_nat (length l) - 1).
Proof.
  intros n c l H. destruct (accepted_same _ _ (config_accepted _ _ _ C)) as (_ & Hs & _).
  destruct (Forall2_in_r _ _ _ _ _ _ Hs H) as (d & Hd & E).
  assert (X : exists l0, d = DEnumerated n c l0 /\ Permutation (map label l0) (map label l) /\ map number l = upto (length l0)).
  { destruct d as [a b' x|a b' x|a b' x|a b' x]; simpl in E; try discriminate. destruct E as (l' & E & R).
    injection E as -> -> ->. exists x. split; [reflexivity|]. split; [exact (renumbered_labels _ _ R)|apply R]. }
  destruct X as (l0 & -> & P & N). apply Permutation_length in P. rewrite !map_length in P.
  rewrite P in N. split; [exact N|].
  assert (NN : l <> []).
  { intros ->. destruct l0 as [|e l0]; [|discriminate]. unfold definitions in Hd. apply in_flat_map in Hd. destruct Hd as (m & Hm & Hd).
    assert (Hg := proj1 C). rewrite Forall_forall in Hg. assert (G := grammatical_defs m _ (Hg m Hm) Hd). unfold definition_ok in G.
    repeat (apply andb_prop in G; destruct G as [G ?]). discriminate. }
  split; [exact NN|]. apply enum_size_width; [rewrite N; reflexivity|exact NN].
Qed.

Lemma number_nth : forall n c l, In (DEnumerated n c l) (all_defs b) -> forall j e, nth_error l j = Some e -> e_pos e = Z.of_nat j.
Proof.
  intros n c l H j e E. destruct (parsed_enum _ _ _ H) as (N & _).
  assert (X : nth_error (map number l) j = Some (number e)) by (rewrite nth_error_map, E; reflexivity).
  rewrite N in X. unfold upto in X. rewrite nth_error_map in X.
  assert (L : (j < length l)%nat) by (apply nth_error_Some; congruence).
  destruct (nth_error (seq 0 (length l)) j) as [x|] eqn:Y; [|discriminate]. injection X as X.
  assert (Z : nth j (seq 0 (length l)) 0%nat = x) by (apply nth_error_nth; exact Y).
  rewrite seq_nth in Z by exact L. simpl in Z. subst x. symmetry. exact X.
Qed.

Lemma visible_defs : forall i d, visible (all_modules b) i d -> In d (all_defs b).
Proof.
  intros i d (j & m & _ & Hm & Hd). unfold all_defs. apply in_flat_map. exists m. split; [|exact Hd].
  eapply nth_error_In. exact Hm.
Qed.

Lemma enum_bits : forall bm k fuel f n cm l w, In bm (b_modules b) ->
  field_for fuel (all_defs b) (simple_definition_list b bm) k f ->
  m_type k = TName n -> In (DEnumerated n cm l) (all_defs b) -> least_width w (Z.of_nat (length l) - 1) ->
  cf_bits f = Some w.
Proof.
  intros bm k fuel f n cm l w Hbm (sb & si & H) Et Hn W. unfold convert_member in H.
  assert (Hc := config_capital _ _ _ _ C Hn). simpl in Hc.
  assert (L := lookup_here _ _ _ C _ Hn). cbn [def_name] in L.
  apply bind_ok in H. destruct H as (cm' & Hm & H). rewrite (map_member_named b k fuel n) in Hm; [|rewrite Et; reflexivity|exact Hc].
  rewrite Et in Hm. cbn [resolve type_name] in Hm. rewrite L in Hm.
  apply bind_ok in Hm. destruct Hm as (s & Hs & Hm). injection Hm as <-. cbn [cm_ctype cm_bits cm_stdbool cm_stdint] in H.
  assert (s = w).
  { destruct fuel as [|fuel]; [discriminate|]. cbn [member_size resolve type_name] in Hs. rewrite L in Hs.
    destruct (parsed_enum _ _ _ Hn) as (_ & _ & w' & E & W'). rewrite E in Hs. injection Hs as <-.
    exact (least_width_unique _ _ _ W' W). }
  subst s.
  assert (F : find (fun sd => String.eqb (c_name (fst sd)) (if mem (lowerize (c_name n)) POSIX_DEFINED_TYPES then lowerize (c_name n) else c_name n))
                (simple_definition_list b bm) = None).
  { apply (sds_find_none names input); [exact C|exact Hbm|]. intros n' t c Hn' E.
    assert (Hc' := config_capital _ _ _ _ C Hn'). simpl in Hc'.
    destruct (mem _ _) eqn:M.
    - apply (instance_name_neq n n' Hc Hc'). symmetry. exact E.
    - apply c_name_inj in E; [|apply capital_name; exact Hc'|apply capital_name; exact Hc]. subst n'.
      assert (G := config_unique _ _ _ _ _ C Hn' Hn eq_refl). discriminate. }
  rewrite F in H. apply bind_ok in H. destruct H as ([[[bits ct] sb'] si'] & H1 & H2). injection H1 as <- _ _ _.
  injection H2 as <- _ _. reflexivity.
Qed.

Lemma enum_declared : forall fuel bm c n cm l cm' items, In bm (b_modules b) -> generated fuel b bm c ->
  In (DEnumerated n cm l) (all_defs b) -> In (CEnum cm' (c_name n) items) (cd_data c) ->
  items = map (fun e => (c_name (e_key e), e_pos e, option_map item_comment (e_comment e))) l.
Proof.
  intros fuel bm c n cm l cm' items Hbm G Hn Hi. destruct (generated_decl_inv _ _ _ _ _ G Hi) as (d & Hd & D).
  assert (Hd' : In d (all_defs b)) by (apply in_all_defs; eauto).
  inversion D; subst. assert (E : n0 = n).
  { apply c_name_inj; [apply capital_name; exact (config_capital _ _ _ _ C Hd')|apply capital_name; exact (config_capital _ _ _ _ C Hn)|congruence]. }
  subst n0. assert (X := config_unique _ _ _ _ _ C Hd' Hn eq_refl). injection X as _ ->. reflexivity.
Qed.

Lemma leaf_enum : forall i t u c w s, item_type (all_modules b) i t u c w s -> forall n cm l,
  element t = TName n -> In (DEnumerated n cm l) (all_defs b) ->
  s = map e_key l /\ c = A_UINT /\ least_width w (Z.of_nat (length l) - 1).
Proof.
  intros i t u c w s H n cm l E Hn.
  destruct H as [t c w E' N W|t E'|k x|t n' u cm' c w E' V W|t n' cm' l' w E' V W].
  - rewrite E' in E. subst t. inversion W; subst; discriminate.
  - congruence.
  - discriminate.
  - rewrite E' in E. injection E as ->. assert (X := config_unique _ _ _ _ _ C (visible_defs _ _ V) Hn eq_refl). discriminate.
  - rewrite E' in E. injection E as ->. assert (X := config_unique _ _ _ _ _ C (visible_defs _ _ V) Hn eq_refl).
    injection X as -> ->. auto.
Qed.

Lemma enum_agrees_leaf : forall i lf,
  item_type (all_modules b) i (m_type (lf_member lf)) (lf_values lf) (lf_kind lf) (lf_bits lf) (lf_states lf) ->
  enum_agrees b lf.
Proof.
  intros i lf H n cm l E Hn. destruct (leaf_enum _ _ _ _ _ _ H _ _ _ E Hn) as (Es & _ & W).
  rewrite Es, map_length. split; [exact W|]. intros fuel bm c Hbm G. split.
  - intros cm' items Hi. rewrite (enum_declared _ _ _ _ _ _ _ _ Hbm G Hn Hi). rewrite map_length. split; [reflexivity|].
    intros j s Hj. rewrite nth_error_map in Hj. destruct (nth_error l j) as [e|] eqn:Ej; [|discriminate]. injection Hj as <-.
    exists (option_map item_comment (e_comment e)). rewrite nth_error_map, Ej. cbn [option_map].
    rewrite (number_nth _ _ _ Hn _ _ Ej). reflexivity.
  - intros sn scm sl cm' fields j Hd Hs Hj Et.
    destruct (struct_field _ _ _ _ _ _ _ _ _ _ _ _ _ C Hbm G Hd Hs Hj) as (f & Hf & _ & F).
    exists f. split; [exact Hf|]. exact (enum_bits _ _ _ _ _ _ _ _ Hbm F Et Hn W).
Qed.

Lemma leaves_items : forall i p l ls, packet_leaves (all_modules b) i p l ls ->
  Forall (fun lf => item_type (all_modules b) i (m_type (lf_member lf)) (lf_values lf) (lf_kind lf) (lf_bits lf) (lf_states lf)) ls.
Proof.
  intros i p l ls H. induction H; [constructor|constructor; [assumption|assumption]|]. apply Forall_app. split; assumption.
Qed.

Lemma text_enum_agrees : forall i m target n t, text_of_message any_value (all_modules b) i m target n t ->
  text_of_message (fun lf _ => enum_agrees b lf) (all_modules b) i m target n t.
Proof.
  intros i m target n t (cm & l & ls & ts & Hd & P & F & E). exists cm, l, ls, ts. split; [exact Hd|]. split; [exact P|].
  split; [|exact E]. apply leaves_items in P. clear - P F C. induction F as [|lf s ls ts A F IH]; [constructor|].
  inversion P; subst. constructor; [|apply IH; assumption].
  destruct A as (line & st & lim & un & E & (f & L & A1 & A2 & A3 & A4 & A5 & A6) & B). exists line, st, lim, un. split; [exact E|].
  split; [|exact B]. exists f. repeat (split; [assumption|]). eapply enum_agrees_leaf. eassumption.
Qed.
End Parsed.

Lemma same_modules_unique : forall input ms ms', Forall2 same_module input ms -> Forall2 same_module input ms' -> ms = ms'.
Proof.
  intros input ms ms' H. revert ms'. induction H as [|m m1 l l1 (A1 & (A2 & A3) & A4 & A5) H IH]; intros ms' H'; inversion H'; subst; [reflexivity|].
  f_equal; [|apply IH; assumption]. match goal with X : same_module m _ |- _ => destruct X as (B1 & (B2 & B3) & B4 & B5) end.
  destruct m1 as [n1 c1 i1 ci1 d1], y as [n2 c2 i2 ci2 d2]. cbn [mod_name mod_comment mod_imports mod_comment_import mod_defs] in *.
  subst. f_equal. clear - A5 B5. revert d2 B5. induction A5 as [|d d1 ds ds1 E A IH]; intros d2 B5; inversion B5; subst; [reflexivity|].
  f_equal; [|apply IH; assumption]. destruct d; simpl in *; try congruence.
  destruct E as (l1 & -> & R1). match goal with X : exists l', _ |- _ => destruct X as (l2 & -> & R2) end.
  rewrite (renumbered_unique _ _ _ R1 R2). reflexivity.
Qed.

Lemma enumerations_agree : forall names input b fuel mn msgs target fs fs',
  Forall (fun m => grammatical m = true) input -> build_from_config names input = Ok b ->
  run fuel (GenerateCosmos mn msgs target) input fs = (fs', Ok tt) ->
  exists ts, folder_get fs' (target ++ ".txt")
       = Some (match folder_get fs (target ++ ".txt") with Some old => old | None => "" end ++ text_of_run ts)
    /\ ((msgs = [] /\ ts = [])
        \/ exists i m, nth_error (all_modules b) i = Some m /\ mod_name m = mn
           /\ Forall2 (text_of_message (fun lf _ => enum_agrees b lf) (all_modules b) i m target) msgs ts).
Proof.
  intros names input b fuel mn msgs target fs fs' Hg Hb H.
  assert (Cf : config names input b) by (split; assumption).
  destruct (run_lists_leaves _ _ _ _ _ _ _ Hg H) as (ms & ts & S & T & _ & D).
  assert (E : ms = all_modules b).
  { apply (same_modules_unique input); [exact S|]. apply accepted_same. apply (config_accepted names). exact Cf. }
  subst ms. exists ts. split; [exact T|]. destruct D as [(-> & -> & _)|(i & m & (Fm & _) & Em & F)]; [left; auto|right].
  exists i, m. split; [exact Fm|]. split; [exact Em|]. clear - F Cf. induction F; constructor; auto.
  eapply text_enum_agrees; eassumption.
Qed.

(** ** Fields of leaves *)

Lemma map_direct_written : forall t c w cm, type_ok t = true -> ranges_ok t -> element t <> TNull ->
  written_item t c w -> map_direct t = Ok cm ->
  match c with
  | A_UINT => 1 <= w <= 64 ->
      (In w [8; 16; 32; 64] -> cm_bits cm = None /\ In (w, cm_ctype cm) UINT_TYPES)
      /\ (~ In w [8; 16; 32; 64] -> cm_bits cm = Some w /\ exists n, In (n, cm_ctype cm) UINT_TYPES /\ w <= n)
  | A_INT => cm_bits cm = None /\ cm_ctype cm = "int"
  | A_FLOAT => cm_bits cm = None /\ cm_ctype cm = "float" /\ w = 32
  | A_DOUBLE => cm_bits cm = None /\ cm_ctype cm = "double" /\ w = 64
  | _ => True
  end.
Proof.
  intros t c w cm Ht Hr Hn W M. apply (written_iff t c w Ht Hr Hn) in W. destruct W as (Ec & Ew & _).
  unfold map_direct in M. rewrite Ec, Ew in M. cbn [bind] in M.
  apply bind_ok in M. destruct M as (_ & _ & M). destruct c; try exact I.
  - intros R. destruct (next_bit_size_small w R) as ((S1 & S2 & S3) & T & P). rewrite P in M.
    destruct (existsb (Z.eqb w) [8; 16; 32; 64]) eqn:E; injection M as <-; cbn [cm_bits cm_ctype]; split; intros X;
      try (apply existsb_width in E; contradiction); try (apply existsb_width in X; congruence).
    + split; [reflexivity|].
      assert (En : next_bit_size w = w) by (apply Z.le_antisymm; [apply S3; [exact X|lia]|exact S2]).
      rewrite En in T |- *. exact T.
    + split; [reflexivity|]. exists (next_bit_size w). split; [exact T|exact S2].
  - injection M as <-. auto.
  - injection M as <-. cbn [cm_bits cm_ctype ctype_lower]. injection Ew as <-. auto.
  - injection M as <-. cbn [cm_bits cm_ctype ctype_lower]. injection Ew as <-. auto.
Qed.

Lemma item_cases : forall ms i t u c w s, item_type ms i t u c w s ->
  (element t = t /\ t <> TBoolean /\ written_item t c w /\ s = [])
  \/ (element t = TBoolean /\ c = A_BOOL /\ w = 1 /\ s = ["False"; "True"])
  \/ (exists k n, t = TString k n /\ c = A_STRING /\ w = n * 8 /\ s = [])
  \/ (exists n cm, element t = TName n /\ visible ms i (DSimple n u cm) /\ written_item u c w /\ s = [])
  \/ (exists n cm l, element t = TName n /\ visible ms i (DEnumerated n cm l) /\ c = A_UINT
       /\ least_width w (Z.of_nat (length l) - 1) /\ s = map e_key l).
Proof. intros ms i t u c w s H. destruct H; eauto 12. Qed.

Section Packed.
Variables (names : list string) (input : list module) (b : bundle) (fuel : nat) (D : list cdecl).
Hypothesis C : config names input b.
Hypothesis HD : declarations fuel b D.

Lemma posix_names_same : forall t n, element t = TName n -> (posix_name t <-> In n POSIX_INTEGER_NAMES).
Proof.
  intros t n E. split.
  - intros (n' & E' & H). rewrite E in E'. injection E' as <-. exact H.
  - intros H. exists n. split; [exact E|exact H].
Qed.

Lemma uint_basic : forall w t, In (w, t) UINT_TYPES -> c_width D t w.
Proof. intros w t H. apply width_basic. unfold BASIC_TYPES. apply in_or_app. left. exact H. Qed.
Lemma int_basic : forall w t, In (w, t) INT_TYPES -> c_width D t w.
Proof. intros w t H. apply width_basic. unfold BASIC_TYPES. apply in_or_app. right. apply in_or_app. left. exact H. Qed.

Lemma declared_in : forall x, In x D -> exists bm d, In bm (b_modules b) /\ In d (mod_defs (bm_mod bm))
  /\ declares fuel (all_defs b) (simple_definition_list b bm) d [x].
Proof.
  intros x H. destruct HD as (cs & F & ->). apply in_flat_map in H. destruct H as (c & Hc & Hx).
  destruct (Forall2_in_r _ _ _ _ _ _ F Hc) as (bm & Hbm & G). destruct (generated_decl_inv _ _ _ _ _ G Hx) as (d & Hd & X). eauto.
Qed.

Lemma struct_declared : forall n cm l, In (DSequence n cm l) (all_defs b) ->
  exists bm cm' fields, In bm (b_modules b) /\ In (DSequence n cm l) (mod_defs (bm_mod bm))
    /\ In (CStruct cm' (c_name n) fields) D
    /\ Forall2 (field_for fuel (all_defs b) (simple_definition_list b bm)) l fields.
Proof.
  intros n cm l H. apply in_all_defs in H. destruct H as (bm & Hbm & Hd). destruct HD as (cs & F & ->).
  destruct (Forall2_in_l _ _ _ _ _ _ F Hbm) as (c & Hc & G).
  destruct (generated_struct _ _ _ _ _ _ _ G Hd) as (fields & Hs & Ff).
  exists bm, (def_comment_text cm), fields. repeat (split; [assumption|]). split; [|exact Ff]. apply in_flat_map. eauto.
Qed.

Lemma enum_declared_in : forall n cm l, In (DEnumerated n cm l) (all_defs b) ->
  exists cm', In (CEnum cm' (c_name n) (map (fun e => (c_name (e_key e), e_pos e, option_map item_comment (e_comment e))) l)) D.
Proof.
  intros n cm l H. apply in_all_defs in H. destruct H as (bm & Hbm & Hd). destruct HD as (cs & F & ->).
  destruct (Forall2_in_l _ _ _ _ _ _ F Hbm) as (c & Hc & G).
  destruct (generated_data _ _ _ _ G) as (sorted & dss & Hs & E & F').
  apply (Permutation_in _ (Permutation_sym (sorted_perm _ _ _ Hs))) in Hd.
  destruct (Forall2_in_l _ _ _ _ _ _ F' Hd) as (ds & Hds & X). inversion X; subst.
  eexists. apply in_flat_map. exists c. split; [exact Hc|]. rewrite E. apply in_concat. eexists. split; [exact Hds|]. left. reflexivity.
Qed.

Lemma enum_width : forall n cm l w, In (DEnumerated n cm l) (all_defs b) -> least_width w (Z.of_nat (length l) - 1) ->
  1 <= w <= 64 -> exists tw, c_width D (c_name n) tw /\ w <= tw.
Proof.
  intros n cm l w H W R. destruct (next_bit_size_small w R) as ((S1 & S2 & S3) & _ & _).
  destruct (enum_declared_in _ _ _ H) as (cm' & E). exists (next_bit_size w). split; [|exact S2].
  eapply width_enum; [exact E|]. destruct (parsed_enum _ _ _ C _ _ _ H) as (N & NN & _).
  assert (POS : forall z, Forall (fun x : string * Z * option string => 0 <= snd (fst x) < 2 ^ z)
      (map (fun e => (c_name (e_key e), e_pos e, option_map item_comment (e_comment e))) l) <-> Z.of_nat (length l) - 1 < 2 ^ z).
  { intros z. rewrite Forall_map, Forall_forall. cbn [fst snd]. split.
    - intros A. assert (L : (length l - 1 < length l)%nat) by (destruct l; [congruence|simpl; lia]).
      destruct (nth_error l (length l - 1)) as [e|] eqn:Ee; [|apply nth_error_None in Ee; lia].
      assert (X := number_nth _ _ _ C _ _ _ H _ _ Ee). specialize (A e (nth_error_In _ _ Ee)). lia.
    - intros A e He. destruct (In_nth_error _ _ He) as (j & Hj). rewrite (number_nth _ _ _ C _ _ _ H _ _ Hj).
      assert (L : (j < length l)%nat) by (apply nth_error_Some; congruence). lia. }
  destruct W as (W0 & W1 & W2). split; [exact S1|]. split.
  - apply POS. assert (2 ^ w <= 2 ^ next_bit_size w) by (apply Z.pow_le_mono_r; lia). lia.
  - intros m Hm A. apply POS in A. apply S3; [exact Hm|]. apply W2; [simpl in Hm; lia|exact A].
Qed.

Section Leaf.
Variables (bm : bmodule) (d : definition) (m : member) (f : cfield).
Hypothesis Hbm : In bm (b_modules b).
Hypothesis Hd : In d (mod_defs (bm_mod bm)).
Hypothesis Hm : In m (members_of d).
Hypothesis Hf : field_for fuel (all_defs b) (simple_definition_list b bm) m f.

Lemma leaf_array : cf_name f = c_name (m_key m)
  /\ cf_array f = match m_type m with TArray n _ => Some n | TString _ n => Some n | _ => None end.
Proof. destruct (field_key _ _ _ _ _ Hf) as (A & _ & B). auto. Qed.

Lemma bit_field : forall i p u c w s, item_type (all_modules b) i (m_type m) u c w s -> bit_leaf (mkleaf p m u c w s) ->
  cf_bits f = Some w /\ cf_array f = None /\ exists tw, c_width D (cf_type f) tw /\ 1 <= w <= tw.
Proof.
  intros i p u c w s H (A & R & B). cbn [lf_member lf_bits lf_kind lf_states] in *.
  assert (NA : cf_array f = None \/ exists k n, m_type m = TString k n).
  { rewrite (proj2 leaf_array). destruct (m_type m); try (left; reflexivity); [right; eauto|discriminate]. }
  assert (Ac := config_accepted _ _ _ C).
  assert (DIRECT : forall t cm, type_ok t = true -> ranges_ok t -> element t <> TNull -> written_item t A_UINT w ->
     map_direct t = Ok cm -> cf_type f = cm_ctype cm -> cf_bits f = cm_bits cm -> ~ In w [8; 16; 32; 64] ->
     cf_bits f = Some w /\ exists tw, c_width D (cf_type f) tw /\ 1 <= w <= tw).
  { intros t cm T1 T2 T3 W M E1 E2 N. destruct (map_direct_written t A_UINT w cm T1 T2 T3 W M R) as (_ & X).
    destruct (X N) as (X1 & n & X2 & X3). rewrite E2. split; [exact X1|]. exists n. split; [|lia]. rewrite E1. apply uint_basic. exact X2. }
  destruct (field_member _ _ _ _ _ _ C Hbm Hd Hm) as (_ & T1 & T2 & T3).
  destruct B as [B|[(B1 & B2 & B3)|(B1 & B2 & B3)]].
  - destruct (field_boolean _ _ _ _ _ _ _ C Hbm Hf) as (X1 & X2); [rewrite B; reflexivity|].
    assert (w = 1).
    { rewrite B in H. inversion H; subst; try congruence; try discriminate. }
    subst w. split; [exact X2|]. split.
    + destruct NA as [NA|(k & n & NA)]; [exact NA|congruence].
    + exists 8. split; [|lia]. rewrite X1. apply uint_basic. left. reflexivity.
  - destruct (item_cases _ _ _ _ _ _ _ H) as [(_ & _ & _ & X)|[(_ & X & _)|[(k & n & _ & X & _)|[(n & cm & _ & _ & _ & X)|(n & cm & l & E & V & _ & W & Es)]]]]; try congruence.
    assert (Hn := visible_defs b i _ V).
    assert (Et : m_type m = TName n) by (destruct (m_type m); try discriminate; exact E).
    destruct (enum_width _ _ _ _ Hn W R) as (tw & X1 & X2).
    destruct (field_named _ _ _ _ _ _ _ C Hbm Hf n _ E Hn eq_refl eq_refl) as (X3 & _).
    { intros X. apply B3. apply (posix_names_same _ n E). exact X. }
    split; [exact (enum_bits _ _ _ C _ _ _ _ _ _ _ _ Hbm Hf Et Hn W)|]. split; [rewrite (proj2 leaf_array), Et; reflexivity|].
    exists tw. rewrite X3. split; [exact X1|lia].
  - subst c. destruct (item_cases _ _ _ _ _ _ _ H) as [(E & _ & W & _)|[(_ & X & _)|[(k & n & _ & X & _)|[(n & cm & E & V & W & _)|(n & cm & l & E & V & _ & W & Es)]]]]; try congruence.
    + assert (NA' : cf_array f = None) by (destruct NA as [NA|(k & n & NA)]; [exact NA|rewrite NA in W; inversion W; discriminate]).
      assert (Ht : match m_type m with TInteger _ | TReal _ => True | _ => False end) by (inversion W; subst; exact I).
      destruct (field_direct _ _ _ _ _ _ _ C Hbm Hf Ht) as (cm & M & E1 & E2).
      destruct (DIRECT _ _ T1 T2 T3 W M E1 E2 B3) as (Y1 & Y2). auto.
    + assert (Hn := visible_defs b i _ V).
      assert (NA' : cf_array f = None) by (destruct NA as [NA|(k & n0 & NA)]; [exact NA|rewrite NA in E; discriminate]).
      destruct (accepted_simple _ _ _ _ _ (proj1 C) Ac Hn) as (U1 & U2 & U3 & U4).
      destruct (field_simple _ _ _ _ _ _ _ _ C Hbm Hd Hm Hf _ _ _ E Hn) as (F1 & F2).
      destruct (in_dec string_dec n POSIX_INTEGER_NAMES) as [P|P].
      * exfalso. apply B3. inversion W; subst.
        assert (U5 := Forall_inv U2). simpl in U5.
        destruct (posix_integer n _ _ P U4) as (x & [(X1 & _ & X3)|(X1 & X2 & X3)]).
        -- assert (0 < 2 ^ (x - 1)); [|lia]. simpl in X3. repeat (destruct X3 as [X3|X3]; [injection X3 as <- _; reflexivity|]). destruct X3.
        -- assert (w = x) as ->.
           { apply (Enum_proofs.least_width_unique e); [assumption|]. rewrite X2. apply least_width_full.
             simpl in X3. repeat (destruct X3 as [X3|X3]; [injection X3 as <- _; lia|]). destruct X3. }
           simpl in X3. repeat (destruct X3 as [X3|X3]; [injection X3 as <- _; simpl; tauto|]). destruct X3.
      * destruct (F2 P) as (cm' & M & E1 & E2). destruct (DIRECT _ _ U1 U2 U3 W M E1 E2 B3) as (Y1 & Y2). auto.
    + rewrite B2 in Es. destruct (parsed_enum _ _ _ C _ _ _ (visible_defs b i _ V)) as (_ & X & _). destruct l; [congruence|discriminate].
Qed.

Lemma byte_field : forall i p u c w s, item_type (all_modules b) i (m_type m) u c w s -> byte_leaf (mkleaf p m u c w s) ->
  cf_bits f = None /\ exists tw, c_width D (cf_type f) tw
    /\ leaf_width (mkleaf p m u c w s) = match cf_array f with Some n => n * tw | None => tw end.
Proof.
  intros i p u c w s H B. unfold byte_leaf in B. unfold leaf_width. cbn [lf_member lf_bits lf_kind lf_states] in *.
  assert (Ac := config_accepted _ _ _ C).
  destruct (field_member _ _ _ _ _ _ C Hbm Hd Hm) as (_ & T1 & T2 & T3).
  assert (NS : (forall k n, m_type m <> TString k n) ->
     match m_type m with TArray n _ => n * w | _ => w end = match cf_array f with Some n => n * w | None => w end).
  { intros N. rewrite (proj2 leaf_array). destruct (m_type m); try reflexivity. destruct (N _ _ eq_refl). }
  assert (DIRECT : forall t cm, type_ok t = true -> ranges_ok t -> element t <> TNull -> written_item t c w ->
     (c = A_INT -> w = 32) -> map_direct t = Ok cm -> cf_type f = cm_ctype cm -> cf_bits f = cm_bits cm ->
     cf_bits f = None /\ c_width D (cf_type f) w).
  { intros t cm T1' T2' T3' W Hi M E1 E2. assert (X := map_direct_written t c w cm T1' T2' T3' W M). rewrite E1, E2.
    destruct c; try contradiction.
    - destruct B as (_ & B). destruct X as (X & _); [simpl in B; lia|]. destruct (X B). split; [assumption|]. apply uint_basic. assumption.
    - destruct X as (-> & ->). rewrite Hi by reflexivity. split; [reflexivity|]. apply width_basic. vm_compute. tauto.
    - inversion W; discriminate.
    - destruct X as (-> & -> & ->). split; [reflexivity|]. apply width_basic. vm_compute. tauto.
    - destruct X as (-> & -> & ->). split; [reflexivity|]. apply width_basic. vm_compute. tauto. }
  destruct (item_cases _ _ _ _ _ _ _ H) as [(E & _ & W & _)|[(_ & -> & _)|[(k & n & E & -> & -> & _)|[(n & cm & E & V & W & _)|(n & cm & l & E & V & -> & W & Es)]]]].
  - assert (Ht : match m_type m with TInteger _ | TReal _ => True | _ => False end).
    { inversion W as [t0 X| | | |]; subst; try exact I. destruct B. }
    destruct (field_direct _ _ _ _ _ _ _ C Hbm Hf Ht) as (cm & M & E1 & E2).
    destruct (DIRECT _ cm T1 T2 T3 W) as (Y1 & Y2); try assumption.
    { intros ->. destruct B as [(n & B & _)|B]; [|exact B]. rewrite E in B. rewrite B in Ht. destruct Ht. }
    split; [exact Y1|]. exists w. split; [exact Y2|]. apply NS. intros k n X. rewrite X in Ht. exact Ht.
  - destruct B.
  - destruct (field_string _ _ _ _ _ _ _ C Hbm Hf k n) as (E1 & E2); [rewrite E; reflexivity|].
    split; [exact E2|]. exists 8. split; [rewrite E1; apply width_basic; vm_compute; tauto|].
    rewrite (proj2 leaf_array), E. reflexivity.
  - assert (Hn := visible_defs b i _ V).
    assert (NS' : forall k x, m_type m <> TString k x) by (intros k x X; rewrite X in E; discriminate).
    destruct (accepted_simple _ _ _ _ _ (proj1 C) Ac Hn) as (U1 & U2 & U3 & U4).
    destruct (field_simple _ _ _ _ _ _ _ _ C Hbm Hd Hm Hf _ _ _ E Hn) as (F1 & F2).
    destruct (in_dec string_dec n POSIX_INTEGER_NAMES) as [P|P].
    + destruct (F1 P) as (E1 & E2). split; [exact E2|]. exists w. split; [|apply NS; exact NS'].
      assert (Pn := proj2 (posix_names_same _ n E) P). rewrite E1.
      inversion W; subst; try contradiction.
      * assert (U5 := Forall_inv U2). simpl in U5.
        destruct (posix_integer n _ _ P U4) as (x & [(X1 & _ & X3)|(X1 & X2 & X3)]).
        -- exfalso. assert (0 < 2 ^ (x - 1)); [|lia]. simpl in X3. repeat (destruct X3 as [X3|X3]; [injection X3 as <- _; reflexivity|]). destruct X3.
        -- assert (w = x) as ->; [|apply uint_basic; exact X3]. apply (Enum_proofs.least_width_unique e); [assumption|]. rewrite X2. apply least_width_full.
           simpl in X3. repeat (destruct X3 as [X3|X3]; [injection X3 as <- _; lia|]). destruct X3.
      * assert (U5 := Forall_inv U2). simpl in U5.
        destruct (posix_integer n _ _ P U4) as (x & [(X1 & X2 & X3)|(X1 & X2 & X3)]); [|exfalso; lia].
        assert (w = x) as ->; [|apply int_basic; exact X3].
        eapply smallest_unique; [eassumption|].
        assert (Hx : In x [8; 16; 32; 64]) by (simpl in X3; repeat (destruct X3 as [X3|X3]; [injection X3 as <- _; simpl; tauto|]); destruct X3).
        split; [exact Hx|]. split.
        -- intros v Hv. lia.
        -- intros y Hy A. specialize (A b0 ltac:(lia)). destruct (Z.le_gt_cases x y) as [L|L]; [exact L|]. exfalso.
           assert (2 ^ (y - 1) < 2 ^ (x - 1)) by (apply Z.pow_lt_mono_r; simpl in Hx, Hy; lia). lia.
    + destruct (F2 P) as (cm' & M & E1 & E2).
      destruct (DIRECT _ cm' U1 U2 U3 W) as (Y1 & Y2); try assumption.
      { intros ->. destruct B as [B|B]; [|exact B]. destruct P. apply (posix_names_same _ n E). exact B. }
      split; [exact Y1|]. exists w. split; [exact Y2|apply NS; exact NS'].
  - destruct B as (B & _). rewrite B in Es. destruct (parsed_enum _ _ _ C _ _ _ (visible_defs b i _ V)) as (_ & X & _). destruct l; [congruence|discriminate].
Qed.
End Leaf.

(** ** Declarations are unique *)

Lemma def_module : forall bm bm' d, In bm (b_modules b) -> In bm' (b_modules b) ->
  In d (mod_defs (bm_mod bm)) -> In d (mod_defs (bm_mod bm')) -> bm = bm'.
Proof.
  intros bm bm' d H H' Hd Hd'.
  destruct (accepted_same _ _ (config_accepted _ _ _ C)) as (_ & _ & N).
  unfold all_defs, all_modules in N. clear - N H H' Hd Hd'.
  induction (b_modules b) as [|x l IH]; [destruct H|]. simpl in N. rewrite map_app in N.
  assert (X : forall y, In y l -> In d (mod_defs (bm_mod y)) -> In d (mod_defs (bm_mod x)) -> False).
  { intros y Hy Dy Dx. apply NoDup_app_iff in N. destruct N as (_ & _ & N). apply (N (def_name d)); [apply in_map; exact Dx|].
    apply in_map. apply in_flat_map. exists (bm_mod y). split; [apply in_map; exact Hy|exact Dy]. }
  destruct H as [->|H], H' as [->|H']; try reflexivity.
  - destruct (X _ H' Hd' Hd).
  - destruct (X _ H Hd Hd').
  - apply IH; try assumption. apply NoDup_app_iff in N. apply N.
Qed.

Definition decl_name (x : cdecl) : string :=
  match x with CStruct _ n _ => n | CEnum _ n _ => n | CUnion _ n _ _ => n end.

Lemma decl_from : forall bm d x, declares fuel (all_defs b) (simple_definition_list b bm) d [x] -> decl_name x = c_name (def_name d).
Proof. intros bm d x H. inversion H; subst; reflexivity. Qed.

Lemma field_unique : forall defs sds k f f', field_for fuel defs sds k f -> field_for fuel defs sds k f' -> f = f'.
Proof. intros defs sds k f f' (sb & si & H) (sb' & si' & H'). congruence. Qed.

Lemma decl_unique : forall x y, In x D -> In y D -> decl_name x = decl_name y -> x = y.
Proof.
  intros x y Hx Hy E. destruct (declared_in _ Hx) as (bm & d & Hbm & Hd & Dx), (declared_in _ Hy) as (bm' & d' & Hbm' & Hd' & Dy).
  rewrite (decl_from _ _ _ Dx), (decl_from _ _ _ Dy) in E.
  assert (A : In d (all_defs b)) by (apply in_all_defs; eauto). assert (A' : In d' (all_defs b)) by (apply in_all_defs; eauto).
  apply c_name_inj in E; [|apply capital_name; exact (config_capital _ _ _ _ C A)|apply capital_name; exact (config_capital _ _ _ _ C A')].
  assert (d = d') by (exact (config_unique _ _ _ _ _ C A A' E)). subst d'.
  assert (bm = bm') by (eapply def_module; eassumption). subst bm'.
  inversion Dx as [|n c l fs F E1 E2|n c l E1 E2|n c l E1 E2]; subst; inversion Dy as [|n' c' l' fs' F' E1 E2| |]; subst; try reflexivity. f_equal.
  clear - F F'. revert fs' F'. induction F as [|k f l fs K _ IH]; intros fs' H; inversion H; subst; [reflexivity|].
  f_equal; [eapply field_unique; eassumption|apply IH; assumption].
Qed.

Lemma decl_upper : forall x, In x D -> exists ch r, decl_name x = String ch r /\ is_upper ch = true.
Proof.
  intros x Hx. destruct (declared_in _ Hx) as (bm & d & Hbm & Hd & Dx). rewrite (decl_from _ _ _ Dx).
  assert (A : In d (all_defs b)) by (apply in_all_defs; eauto). assert (Cd := config_capital _ _ _ _ C A).
  destruct (c_name (def_name d)) as [|ch r] eqn:E.
  - exfalso. rewrite c_name_eq in E by (apply capital_name; exact Cd). apply capital_chars in Cd. destruct Cd as (ch & r & X & _). rewrite X in E. discriminate.
  - exists ch, r. split; [reflexivity|]. exact (first_char _ _ _ Cd E).
Qed.

Lemma basic_lower : forall w t, In (w, t) BASIC_TYPES -> exists ch r, t = String ch r /\ is_upper ch = false.
Proof.
  intros w t H. unfold BASIC_TYPES, UINT_TYPES, INT_TYPES in H. simpl in H.
  repeat (destruct H as [H|H]; [injection H as _ <-; do 2 eexists; split; reflexivity|]). destruct H.
Qed.

Lemma basic_unique : forall w w' t, In (w, t) BASIC_TYPES -> In (w', t) BASIC_TYPES -> w = w'.
Proof.
  assert (N : NoDup (map snd BASIC_TYPES)) by (vm_compute; repeat constructor; simpl; intuition discriminate).
  intros w w' t H H'. assert (X := NoDup_map_inj _ _ _ _ _ _ N H H' eq_refl). congruence.
Qed.

Lemma width_not_struct : forall t w cm fields, c_width D t w -> ~ In (CStruct cm t fields) D.
Proof.
  intros t w cm fields H X. destruct H as [t w H|cm' n items w H _].
  - destruct (basic_lower _ _ H) as (ch & r & -> & L). destruct (decl_upper _ X) as (ch' & r' & E & U). simpl in E. congruence.
  - assert (E := decl_unique _ _ H X eq_refl). discriminate.
Qed.

Lemma width_unique : forall t w w', c_width D t w -> c_width D t w' -> w = w'.
Proof.
  intros t w w' H H'. destruct H as [t w H|cm' n items w H S], H' as [t w' H'|cm'' n' items' w' H' S'].
  - eapply basic_unique; eassumption.
  - exfalso. destruct (basic_lower _ _ H) as (ch & r & -> & L). destruct (decl_upper _ H') as (ch' & r' & E & U). simpl in E. congruence.
  - exfalso. destruct (basic_lower _ _ H') as (ch & r & -> & L). destruct (decl_upper _ H) as (ch' & r' & E & U). simpl in E. congruence.
  - assert (E := decl_unique _ _ H H' eq_refl). injection E as _ ->. eapply smallest_unique; eassumption.
Qed.

(** ** Layout *)

Lemma layout_unique : forall p o fs ss e, c_layout D p o fs ss e -> forall ss' e', c_layout D p o fs ss' e' -> ss = ss' /\ e = e'.
Proof.
  intros p o fs ss e H. induction H as [p o|p o f r w tw ss e B A W R L IH|p o f r w ss e B A W L IH|p o f r n w ss e B A W L IH
     |p o f r cm fields ss e ss1 e1 B A S L IH L' IH'|p o f r n cm fields ss e B A S L IH]; intros ss' e' H'; inversion H'; subst; try congruence; auto;
    try (exfalso; eapply width_not_struct; eassumption).
  - assert (w0 = w) by congruence. subst w0. destruct (IH _ _ ltac:(eassumption)) as (-> & ->). auto.
  - assert (w0 = w) by (eapply width_unique; eassumption). subst w0. destruct (IH _ _ ltac:(eassumption)) as (-> & ->). auto.
  - assert (n0 = n) by congruence. assert (w0 = w) by (eapply width_unique; eassumption). subst n0 w0. destruct (IH _ _ ltac:(eassumption)) as (-> & ->). auto.
  - assert (E : CStruct cm0 (cf_type f) fields0 = CStruct cm (cf_type f) fields) by (apply decl_unique; [assumption|assumption|reflexivity]).
    injection E as -> ->. destruct (IH _ _ ltac:(eassumption)) as (-> & ->). destruct (IH' _ _ ltac:(eassumption)) as (-> & ->). auto.
  - assert (n0 = n) by congruence. subst n0. apply IH. assumption.
Qed.

Lemma step_bits : forall p o f r ss e w tw, cf_bits f = Some w -> cf_array f = None -> c_width D (cf_type f) tw -> 1 <= w <= tw ->
  (c_layout D p o (f :: r) ss e <-> exists ss', ss = mkslot (p ++ [cf_name f]) o w :: ss' /\ c_layout D p (o + w) r ss' e).
Proof.
  intros p o f r ss e w tw B A W R. split.
  - intros H. inversion H; subst; try congruence. assert (w0 = w) by congruence. subst. eauto.
  - intros (ss' & -> & H). eapply lay_bits; eassumption.
Qed.

Lemma step_bytes : forall p o f r ss e w, cf_bits f = None -> c_width D (cf_type f) w ->
  (c_layout D p o (f :: r) ss e <->
   exists ss', ss = mkslot (p ++ [cf_name f]) (up8 o) (match cf_array f with Some n => n * w | None => w end) :: ss'
     /\ c_layout D p (up8 o + match cf_array f with Some n => n * w | None => w end) r ss' e).
Proof.
  intros p o f r ss e w B W. split.
  - intros H. inversion H; subst; try congruence; try (exfalso; eapply width_not_struct; eassumption);
      assert (w0 = w) by (eapply width_unique; eassumption); subst; match goal with X : cf_array f = _ |- _ => rewrite X end; eauto.
  - intros (ss' & -> & H). destruct (cf_array f) as [n|] eqn:A; [eapply lay_array|eapply lay_basic]; eassumption.
Qed.

Lemma step_struct : forall p o f r ss e cm fields, cf_bits f = None -> cf_array f = None -> In (CStruct cm (cf_type f) fields) D ->
  (c_layout D p o (f :: r) ss e <->
   exists ss1 e1 ss2, ss = (ss1 ++ ss2)%list /\ c_layout D (p ++ [cf_name f]) (up8 o) fields ss1 e1 /\ c_layout D p (up8 e1) r ss2 e).
Proof.
  intros p o f r ss e cm fields B A S. split.
  - intros H. inversion H; subst; try congruence; try (exfalso; eapply width_not_struct; eassumption).
    assert (E : CStruct cm0 (cf_type f) fields0 = CStruct cm (cf_type f) fields) by (apply decl_unique; [assumption|assumption|reflexivity]).
    injection E as -> ->. do 3 eexists. split; [reflexivity|]. split; eassumption.
  - intros (ss1 & e1 & ss2 & -> & H1 & H2). eapply lay_struct; eassumption.
Qed.

(** ** Both layouts *)

Lemma up8_same : forall o, up8 o = o <-> o mod 8 = 0.
Proof. intros o. unfold up8. Z.div_mod_to_equations. lia. Qed.
Lemma up8_mod : forall o, up8 o mod 8 = 0.
Proof. intros o. unfold up8. apply Z.mod_mul. lia. Qed.

Lemma packet_slots_app : forall a c o, packet_slots o (a ++ c) = (packet_slots o a ++ packet_slots (packet_end o a) c)%list.
Proof. unfold packet_end. induction a as [|x a IH]; intros c o; simpl; [reflexivity|]. rewrite IH. reflexivity. Qed.
Lemma packet_end_app : forall a c o, packet_end o (a ++ c) = packet_end (packet_end o a) c.
Proof. intros a c o. unfold packet_end. apply fold_left_app. Qed.
Lemma packet_slots_length : forall a o, length (packet_slots o a) = length a.
Proof. induction a as [|x a IH]; intros o; simpl; [reflexivity|]. rewrite IH. reflexivity. Qed.

Lemma app_same_length : forall A (a c a' c' : list A), length a = length a' -> (a ++ c = a' ++ c')%list -> a = a' /\ c = c'.
Proof.
  intros A a. induction a as [|x a IH]; intros c [|y a'] c' L E; simpl in *; try discriminate; [auto|].
  injection E as -> E. destruct (IH c a' c' ltac:(lia) E) as (-> & ->). auto.
Qed.

Lemma supported_leaves : forall ms i p l ls, supported ms i p l ls -> packet_leaves ms i p l ls.
Proof.
  intros ms i p l ls H. induction H as [p|p m r u c w s ls I B H IH|p m n cm l r ls ls' E P V H IH H' IH'].
  - constructor.
  - apply pl_leaf; assumption.
  - eapply pl_nested; try eassumption. rewrite E. reflexivity.
Qed.
Lemma aligned_leaves : forall ms i p o l ls, aligned ms i p o l ls -> packet_leaves ms i p l ls.
Proof.
  intros ms i p o l ls H. induction H as [p o|p o m r u c w s ls I B H IH|p o m n cm l r ls ls' E V M H IH A H' IH'].
  - constructor.
  - apply pl_leaf; assumption.
  - eapply pl_nested; try eassumption. rewrite E. reflexivity.
Qed.

Definition names_of (p : list member) : list string := map (fun m => c_name (m_key m)) p.

Lemma both_layouts : forall i p l ls, supported (all_modules b) i p l ls ->
  forall bm d fs o, In bm (b_modules b) -> In d (mod_defs (bm_mod bm)) -> incl l (members_of d) ->
  Forall2 (field_for fuel (all_defs b) (simple_definition_list b bm)) l fs ->
  exists ss e, c_layout D (names_of p) o fs ss e /\ length ss = length ls
    /\ (o mod 8 = 0 -> l <> [] -> exists s ss', ss = s :: ss' /\ sl_offset s = o)
    /\ (ss = packet_slots o ls <-> aligned (all_modules b) i p o l ls)
    /\ (aligned (all_modules b) i p o l ls -> up8 e = up8 (packet_end o ls)).
Proof.
  assert (Ac := config_accepted _ _ _ C).
  intros i p l ls H. induction H as [p|p m r u c w s ls I B H IH|p m n cm l r ls ls' E P V H IH H' IH'];
    intros bm d fs o Hbm Hd Hl F; inversion F as [|? f ? fs' Ff Fr]; subst.
  - exists [], o. split; [constructor|]. split; [reflexivity|]. split; [congruence|]. split; [|reflexivity].
    split; [intros _; constructor|reflexivity].
  - assert (Hm : In m (members_of d)) by (apply Hl; left; reflexivity).
    assert (Hr : incl r (members_of d)) by (intros x Hx; apply Hl; right; exact Hx).
    assert (INV : aligned (all_modules b) i p o (m :: r) (mkleaf p m u c w s :: ls) ->
       (bit_leaf (mkleaf p m u c w s) \/ o mod 8 = 0) /\ aligned (all_modules b) i p (o + leaf_width (mkleaf p m u c w s)) r ls).
    { intros A. inversion A as [|? ? ? ? ? ? ? ? ? I' B' A'|? ? ? n' cm' l' ? la lb E' V']; subst; [auto|].
      exfalso. eapply item_not_nested; [exact Ac|exact I|rewrite E'; reflexivity|exact V']. }
    assert (NM : (names_of p ++ [c_name (m_key m)])%list = leaf_path (mkleaf p m u c w s)).
    { unfold leaf_path, names_of. cbn [lf_path lf_member]. rewrite map_app. reflexivity. }
    assert (NF := proj1 (leaf_array bm m f Ff)).
    destruct B as [B|B].
    + destruct (bit_field _ _ _ _ Hbm Hd Hm Ff _ _ _ _ _ _ I B) as (F1 & F2 & tw & F3 & F4).
      assert (LW : leaf_width (mkleaf p m u c w s) = w).
      { unfold leaf_width. cbn [lf_member lf_bits]. destruct B as (B & _). cbn [lf_member] in B. destruct (m_type m); try reflexivity. discriminate. }
      destruct (IH bm d fs' (o + w) Hbm Hd Hr Fr) as (ss & e & L & Len & _ & EQ & UP).
      exists (mkslot (leaf_path (mkleaf p m u c w s)) o w :: ss), e. split; [|split; [|split; [|split]]].
      * apply (step_bits _ _ _ _ _ _ _ _ F1 F2 F3 F4). exists ss. rewrite NF, NM. auto.
      * simpl. congruence.
      * intros _ _. do 2 eexists. split; reflexivity.
      * simpl. rewrite LW. split.
        -- intros X. injection X as X. apply al_leaf; [exact I|left; exact B|]. rewrite LW. apply EQ. exact X.
        -- intros A. destruct (INV A) as (_ & A'). rewrite LW in A'. f_equal. apply EQ. exact A'.
      * intros A. destruct (INV A) as (_ & A'). rewrite LW in A'. unfold packet_end. simpl. rewrite LW. apply UP. exact A'.
    + destruct (byte_field _ _ _ _ Hbm Hd Hm Ff _ _ _ _ _ _ I B) as (F1 & tw & F3 & LW).
      remember (leaf_width (mkleaf p m u c w s)) as W eqn:EW.
      assert (INV' : aligned (all_modules b) i p o (m :: r) (mkleaf p m u c w s :: ls) -> up8 o = o /\ aligned (all_modules b) i p (o + W) r ls).
      { intros A. destruct (INV A) as ([B'|A1] & A2).
        - exfalso. destruct (bit_field _ _ _ _ Hbm Hd Hm Ff _ _ _ _ _ _ I B') as (F1' & _). congruence.
        - split; [apply up8_same; exact A1|exact A2]. }
      destruct (IH bm d fs' (up8 o + W) Hbm Hd Hr Fr) as (ss & e & L & Len & _ & EQ & UP).
      exists (mkslot (leaf_path (mkleaf p m u c w s)) (up8 o) W :: ss), e. split; [|split; [|split; [|split]]].
      * apply (step_bytes _ _ _ _ _ _ _ F1 F3). exists ss. rewrite NF, NM, <- LW. auto.
      * simpl. congruence.
      * intros A _. do 2 eexists. split; [reflexivity|]. simpl. apply up8_same. exact A.
      * simpl. rewrite <- EW. split.
        -- intros X. injection X as X1 X2. apply al_leaf; [exact I|right; apply up8_same; exact X1|]. rewrite <- EW. rewrite X1 in *. apply EQ. exact X2.
        -- intros A. destruct (INV' A) as (A1 & A'). rewrite A1 in *. f_equal. apply EQ. exact A'.
      * intros A. destruct (INV' A) as (A1 & A'). rewrite A1 in *. unfold packet_end. simpl. rewrite <- EW. apply UP. exact A'.
  - assert (Hm : In m (members_of d)) by (apply Hl; left; reflexivity).
    assert (Hr : incl r (members_of d)) by (intros x Hx; apply Hl; right; exact Hx).
    assert (Hn := visible_defs b i _ V).
    destruct (struct_declared _ _ _ Hn) as (bm' & cm' & fields & Hbm' & Hd' & Hs & Fl).
    assert (Ee : element (m_type m) = TName n) by (rewrite E; reflexivity).
    destruct (field_named _ _ _ _ _ _ _ C Hbm Ff n _ Ee Hn eq_refl eq_refl) as (F1 & F2).
    { intros X. apply P. apply (posix_names_same _ n Ee). exact X. }
    assert (F3 : cf_bits f = None) by (destruct (m_type m); exact F2).
    assert (F4 : cf_array f = None) by (rewrite (proj2 (leaf_array bm m f Ff)), E; reflexivity).
    assert (NF := proj1 (leaf_array bm m f Ff)).
    destruct (IH bm' _ fields (up8 o) Hbm' Hd' (incl_refl _) Fl) as (ss1 & e1 & L1 & Len1 & FS1 & EQ1 & UP1).
    destruct (IH' bm d fs' (up8 e1) Hbm Hd Hr Fr) as (ss2 & e2 & L2 & Len2 & FS2 & EQ2 & UP2).
    assert (NE : l <> []) by (exact (members_nonempty _ _ (proj1 C) Ac _ Hn eq_refl)).
    destruct (FS1 (up8_mod o) NE) as (s1 & t1 & Es1 & Eo1).
    assert (INV : aligned (all_modules b) i p o (m :: r) (ls ++ ls') ->
       o mod 8 = 0 /\ aligned (all_modules b) i (p ++ [m]) o l ls /\ (r = [] \/ packet_end o ls mod 8 = 0)
       /\ aligned (all_modules b) i p (packet_end o ls) r ls').
    { intros A. inversion A as [|? ? ? ? ? ? ? ? ? I' B' A'|? ? ? n' cm'' l' ? la lb E' V' A1 A2 A3 A4]; subst.
      - exfalso. eapply item_not_nested; [exact Ac|exact I'|exact Ee|exact V].
      - rewrite E in E'. injection E' as <-. assert (X := visible_unique _ _ Ac i _ _ V V' eq_refl). injection X as <- <-.
        assert (la = ls) as -> by (exact (leaves_unique _ _ Ac _ _ _ _ _ (aligned_leaves _ _ _ _ _ _ A2) (supported_leaves _ _ _ _ _ H))).
        assert (lb = ls') as -> by (exact (leaves_unique _ _ Ac _ _ _ _ _ (aligned_leaves _ _ _ _ _ _ A4) (supported_leaves _ _ _ _ _ H'))).
        auto. }
    exists (ss1 ++ ss2)%list, e2. split; [|split; [|split; [|split]]].
    + apply (step_struct _ _ _ _ _ _ _ _ F3 F4 ltac:(rewrite F1; exact Hs)). exists ss1, e1, ss2. split; [reflexivity|]. split; [|exact L2].
      rewrite NF. unfold names_of in *. rewrite map_app in L1. exact L1.
    + rewrite !app_length. congruence.
    + intros A _. subst ss1. do 2 eexists. split; [reflexivity|]. rewrite Eo1. apply up8_same. exact A.
    + rewrite packet_slots_app. split.
      * intros X. apply app_same_length in X; [|rewrite packet_slots_length; exact Len1]. destruct X as (X1 & X2).
        assert (O1 : up8 o = o).
        { rewrite X1 in Es1. destruct ls as [|x ls]; [discriminate|]. simpl in Es1. injection Es1 as <- _. simpl in Eo1. congruence. }
        rewrite O1 in *. assert (A1 := proj1 EQ1 X1). specialize (UP1 A1).
        eapply al_nested; [exact E|exact V|apply up8_same; exact O1|exact A1| |].
        -- destruct r as [|m2 r]; [left; reflexivity|right].
           destruct (FS2 (up8_mod e1) ltac:(discriminate)) as (s2 & t2 & Es2 & Eo2). rewrite X2 in Es2.
           destruct ls' as [|x ls']; [discriminate|]. simpl in Es2. injection Es2 as <- _. simpl in Eo2. apply up8_same. congruence.
        -- destruct r as [|m2 r].
           ++ inversion H'; subst. constructor.
           ++ destruct (FS2 (up8_mod e1) ltac:(discriminate)) as (s2 & t2 & Es2 & Eo2). rewrite X2 in Es2.
              assert (O2 : packet_end o ls = up8 e1) by (destruct ls' as [|x ls']; [discriminate|]; simpl in Es2; injection Es2 as <- _; simpl in Eo2; congruence).
              rewrite O2 in *. apply EQ2. exact X2.
      * intros A. destruct (INV A) as (A1 & A2 & A3 & A4). assert (O1 : up8 o = o) by (apply up8_same; exact A1). rewrite O1 in *.
        specialize (UP1 A2). f_equal; [apply EQ1; exact A2|].
        destruct A3 as [->|A3].
        -- inversion H'; subst. destruct ss2; [reflexivity|discriminate].
        -- apply up8_same in A3. rewrite UP1, A3 in *. apply EQ2. exact A4.
    + intros A. destruct (INV A) as (A1 & A2 & A3 & A4). assert (O1 : up8 o = o) by (apply up8_same; exact A1). rewrite O1 in *.
      specialize (UP1 A2). rewrite packet_end_app. destruct A3 as [->|A3].
      * inversion H'; subst. inversion Fr; subst. inversion L2; subst. unfold packet_end at 1. simpl.
        rewrite (proj2 (up8_same (up8 e1)) (up8_mod e1)). exact UP1.
      * apply up8_same in A3. rewrite UP1, A3 in *. apply UP2. exact A4.
Qed.

Lemma packed_agree : forall i n cm l ls, In (DSequence n cm l) (all_defs b) -> supported (all_modules b) i [] l ls ->
  exists cm' fields ss e, In (CStruct cm' (c_name n) fields) D /\ c_layout D [] 0 fields ss e
    /\ (forall cm2 fields2, In (CStruct cm2 (c_name n) fields2) D -> fields2 = fields)
    /\ (forall ss2 e2, c_layout D [] 0 fields ss2 e2 -> ss2 = ss /\ e2 = e)
    /\ (ss = packet_slots 0 ls <-> aligned (all_modules b) i [] 0 l ls)
    /\ (ss = packet_slots 0 ls -> up8 e = up8 (packet_end 0 ls)).
Proof.
  intros i n cm l ls Hn H. destruct (struct_declared _ _ _ Hn) as (bm & cm' & fields & Hbm & Hd & Hs & F).
  destruct (both_layouts i [] l ls H bm _ fields 0 Hbm Hd (incl_refl _) F) as (ss & e & L & _ & _ & EQ & UP).
  exists cm', fields, ss, e. split; [exact Hs|]. split; [exact L|]. split.
  - intros cm2 fields2 H2. assert (E := decl_unique _ _ Hs H2 eq_refl). congruence.
  - split; [|split; [exact EQ|intros X; apply UP, EQ, X]]. intros ss2 e2 L2. destruct (layout_unique _ _ _ _ _ L _ _ L2). auto.
Qed.
End Packed.
