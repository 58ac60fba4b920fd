(** * Proofs: binary images as COSMOS packets *)
From Coq Require Import QArith Qabs Lia ZifyBool ZifyNat ZifyN.
From Verif Require Import Base PyNum PyStr Ast Size Bundle CCommon GenBinary GenCosmos Main Spec_Enum Spec_Grammar Spec_Num Spec_Check
  Spec_Bundle Spec_Size Spec_Text Spec_Gen Spec_Layout Spec_Ieee Spec_Floats Spec_Header Spec_Binary Spec_Object Spec_Cosmos Cosmos_proofs Spec_Telemetry
  Check_proofs Field_proofs Text_proofs Floats_proofs Telemetry_proofs Lib_proofs Bundle_proofs Accept_proofs Cosmos_text_proofs Binary_proofs Enum_proofs Spec_Sent.
Open Scope string_scope.
Open Scope list_scope.

(** ** Values *)

Lemma int_read : forall z d, real_value (VInt z) d -> reads_as (str_of_Z z) d.
Proof.
  intros z d H. inversion H as [f|v y s m e Hz A V N Sg]; subst. cbn [int_value] in Hz. injection Hz as <-.
  split; [exact I|]. right. exists z. split; [apply read_str_of_Z|]. split; [reflexivity|]. split; [exact N|].
  unfold double_overflow. change (Qabs (inject_Z z)) with (inject_Z (Z.abs z)). rewrite <- Zlt_Qlt. exact A.
Qed.
Lemma float_read : forall f d, real_value (VFloat f) d -> float_ok f = true -> finite (fval f) -> reads_as (frepr f) d.
Proof.
  intros f d H OK F. inversion H as [g|v y s m e Hz A V N Sg]; subst; [|discriminate Hz].
  split; [exact F|]. left. exact (printed_rounded f OK F).
Qed.

Lemma fixed_one : forall p x u c w st l v cm, clauses_at p = [l] -> NoDup (map wi_key l) -> In (WI (m_key x) v cm) l ->
  fixed_values (mkleaf p x u c w st) = [v].
Proof.
  intros p x u c w st l v cm C N H. unfold fixed_values. cbn [lf_member lf_path]. rewrite C. cbn [flat_map]. rewrite app_nil_r. clear C.
  unfold values_for. induction l as [|[k v' cm'] l IH]; [destruct H|]. cbn [map wi_key] in N. apply NoDup_cons_iff in N as (N1 & N2).
  cbn [filter wi_key]. destruct H as [H|H].
  - injection H as -> -> ->. rewrite String.eqb_refl. cbn [map wi_value]. f_equal.
    clear IH N2. induction l as [|j l IH]; [reflexivity|]. cbn [map In] in N1. cbn [filter].
    destruct (String.eqb_spec (wi_key j) (m_key x)) as [Q|_]; [tauto|]. apply IH. tauto.
  - destruct (String.eqb_spec k (m_key x)) as [->|_]; [|exact (IH N2 H)]. exfalso. apply N1. exact (in_map wi_key _ _ H).
Qed.
Lemma narrow_one : forall k l w cm, NoDup (map wi_key l) -> In (WI k (VWith w) cm) l -> narrow k l = [wc_items w].
Proof.
  intros k l w cm N H. unfold narrow. induction l as [|[k' v' cm'] l IH]; [destruct H|]. cbn [map wi_key] in N. apply NoDup_cons_iff in N as (N1 & N2).
  cbn [flat_map]. destruct H as [H|H].
  - injection H as -> -> ->. rewrite String.eqb_refl. cbn [app]. f_equal. clear IH N2. induction l as [|[k' v' cm'] l IH]; [reflexivity|].
    cbn [map wi_key In] in N1. cbn [flat_map]. rewrite IH by tauto. destruct v'; try reflexivity.
    destruct (String.eqb_spec k' k) as [->|_]; [tauto|reflexivity].
  - rewrite (IH N2 H). destruct v'; try reflexivity. destruct (String.eqb_spec k' k) as [->|_]; [|reflexivity].
    exfalso. apply N1. exact (in_map wi_key _ _ H).
Qed.

Lemma bytes_app : forall a b a' b', packet_bytes a b -> packet_bytes a' b' -> packet_bytes (a ++ a') (b ++ b').
Proof.
  intros a b a' b' H H'. induction H as [|t r b b2 I H IH]; [exact H'|]. rewrite <- app_assoc. apply more_bytes; assumption.
Qed.

Scheme struct_mut := Minimality for struct_image Sort Prop
  with members_mut := Minimality for members_image Sort Prop.
Combined Scheme image_mut from struct_mut, members_mut.

Section Sent.
Variables (input : list module) (bun : bundle) (i : nat) (e : endianness).
Hypothesis Ha : accepted input bun.
Hypothesis Hg : Forall (fun m => grammatical m = true) input.
Let ms := all_modules bun.
Let ds := definitions input.

Lemma ND : NoDup (map def_name ds).
Proof.
  destruct (accepted_same _ _ Ha) as (_ & S & N). rewrite (same_definitions_names _ _ S) in N. exact N.
Qed.

Lemma one_def : forall d d', In d ds -> In d' ds -> def_name d = def_name d' -> d = d'.
Proof. intros d d' A B E. exact (NoDup_map_inj _ _ _ _ _ _ ND A B E). Qed.

Lemma visible_input : forall d, visible ms i d -> exists d0, In d0 ds /\ same_definition d0 d.
Proof.
  intros d V. assert (H := visible_defs _ _ _ V). exact (Forall2_in_r _ _ _ _ _ _ (proj1 (proj2 (accepted_same _ _ Ha))) H).
Qed.
Lemma visible_simple : forall n u c, visible ms i (DSimple n u c) -> In (DSimple n u c) ds.
Proof.
  intros n u c V. destruct (visible_input _ V) as (d0 & H & S0). destruct d0 as [? ? ?|? ? ?|? ? ?|? ? ?]; cbn [same_definition] in S0;
    try (destruct S0 as (? & S0 & _)); try discriminate S0. rewrite S0. exact H.
Qed.
Lemma visible_sequence : forall n c l, visible ms i (DSequence n c l) -> In (DSequence n c l) ds.
Proof.
  intros n u c V. destruct (visible_input _ V) as (d0 & H & S0). destruct d0 as [? ? ?|? ? ?|? ? ?|? ? ?]; cbn [same_definition] in S0;
    try (destruct S0 as (? & S0 & _)); try discriminate S0. rewrite S0. exact H.
Qed.
Lemma visible_enum : forall n c l, visible ms i (DEnumerated n c l) -> exists l0, In (DEnumerated n c l0) ds /\ length l = length l0.
Proof.
  intros n c l V. destruct (visible_input _ V) as (d0 & H & S0). destruct d0 as [? ? ?|? ? ?|n0 c0 l0|? ? ?]; cbn [same_definition] in S0; try discriminate S0.
  destruct S0 as (l' & S0 & R). injection S0 as -> -> ->. exists l0. split; [exact H|].
  destruct R as (R & _). rewrite <- (map_length number l'), R. unfold upto. rewrite map_length, seq_length. reflexivity.
Qed.

Lemma kind_sent : forall p x u c w st enc, item_type ms i (m_type x) u c w st -> encoded_as ds (m_type x) enc ->
  is_array (m_type x) = false -> named_right (mkleaf p x u c w st) ->
  match enc with
  | EInt false w' => c = A_UINT /\ w = w'
  | EInt true w' => c = A_INT /\ w = w'
  | ESingle => c = A_FLOAT /\ w = 32%Z
  | EDouble => c = A_DOUBLE /\ w = 64%Z
  end.
Proof.
  intros p x u c w st enc H EN Ar NR. unfold named_right in NR. cbn [lf_member lf_kind] in NR. revert H EN Ar NR. generalize (m_type x) as t. intros t H EN Ar NR.
  assert (NM : forall n, element t = TName n -> t = TName n) by (intros n E; destruct t; try discriminate E; try discriminate Ar; exact E).
  assert (SZ : forall n w', t = TName n -> bit_size ds t w' -> c <> A_BOOL -> w = w').
  { intros n w' E0 B NB. destruct H as [t c w E N W|t E|k n'|t n' u cm c w E V W|t n' cm l w E V W]; try subst t.
    - exfalso. inversion W; subst; discriminate.
    - discriminate E.
    - discriminate.
    - injection E as ->. apply visible_simple in V. destruct B as [B|(n2 & c2 & l2 & ls & E & I2 & _)].
      + inversion B as [? ? Q _|? ? ? ? I' VS|? ? ? ? I' _|? ? Q _]; subst.
        * exfalso. apply Q. exists n'. reflexivity.
        * assert (Q := one_def _ _ V I' eq_refl). injection Q as <- _. destruct W; [congruence|..]; inversion VS; subst; try discriminate; try lia; try tauto.
          -- eapply Cosmos_text_proofs.least_width_unique; eassumption.
          -- eapply smallest_unique; eassumption.
        * assert (Q := one_def _ _ V I' eq_refl). discriminate.
        * exfalso. apply Q. apply (in_map def_name _ _ V).
      + injection E as <-. assert (Q := one_def _ _ V I2 eq_refl). discriminate.
    - injection E as ->. apply visible_enum in V as (l0 & V & L). destruct B as [B|(n2 & c2 & l2 & ls & E & I2 & _)].
      + inversion B as [? ? Q _|? ? ? ? I' VS|? ? ? ? I' LW|? ? Q _]; subst.
        * exfalso. apply Q. exists n'. reflexivity.
        * assert (Q := one_def _ _ V I' eq_refl). discriminate.
        * assert (Q := one_def _ _ V I' eq_refl). injection Q as <- <-. rewrite L in W. eapply Cosmos_text_proofs.least_width_unique; eassumption.
        * exfalso. apply Q. apply (in_map def_name _ _ V).
      + injection E as <-. assert (Q := one_def _ _ V I2 eq_refl). discriminate. }
  assert (WR : forall c' w', written_item t c' w' -> element t = t -> t <> TBoolean -> (forall n, t <> TName n) -> (forall k n, t <> TString k n) -> c = c' /\ w = w').
  { intros c' w' W E NB NN NS. destruct H as [t c w E' N W'|t E'|k n'|t n' u cm c w E' V W'|t n' cm l w E' V W'].
    - exact (written_unique _ _ _ _ _ W' W).
    - exfalso. apply NB. rewrite <- E, E'. reflexivity.
    - exfalso. apply (NS k n'). reflexivity.
    - exfalso. apply (NN n'). rewrite <- E, E'. reflexivity.
    - exfalso. apply (NN n'). rewrite <- E, E'. reflexivity. }
  destruct EN as [b ee w' L W Hw|b ee w' L W|b ee A1 A2|b ee A1|t n s w' E P B Hw|t E B|t E B].
  - apply WR; try discriminate; [|reflexivity]. apply written_unsigned; assumption.
  - apply WR; try discriminate; [|reflexivity]. apply written_signed; assumption.
  - apply WR; try discriminate; [|reflexivity]. apply written_single; assumption.
  - apply WR; try discriminate; [|reflexivity]. apply written_double; assumption.
  - apply NM in E. assert (Q := SZ _ _ E B). destruct (NR n E) as (N1 & N2 & _). destruct s; [specialize (N2 P)|specialize (N1 P)]; (split; [assumption|]); apply Q; congruence.
  - apply NM in E. assert (Q := SZ _ _ E B). destruct (NR _ E) as (_ & _ & N1 & _). specialize (N1 eq_refl). split; [assumption|]. apply Q; congruence.
  - apply NM in E. assert (Q := SZ _ _ E B). destruct (NR _ E) as (_ & _ & _ & N1). specialize (N1 eq_refl). split; [assumption|]. apply Q; congruence.
Qed.

Lemma leaf_sent : forall p x u c w st enc v b t, item_type ms i (m_type x) u c w st -> encoded_as ds (m_type x) enc -> image e enc v b ->
  fixed_values (mkleaf p x u c w st) = [v] -> wval_ok v = true -> plain_leaf e (mkleaf p x u c w st) -> item_of (mkleaf p x u c w st) t ->
  item_bytes t b.
Proof.
  intros p x u c w st enc v b t H EN IM FV OK (Ar & Bo & NR & PV) IT.
  assert (K := kind_sent p x u c w st enc H EN Ar NR).
  assert (PV' := PV v). rewrite FV in PV'. specialize (PV' (or_introl eq_refl)). clear PV.
  destruct IT as [_ RO TB TT _ TL _ _ _]. unfold role_of in RO. rewrite FV in RO. cbn [lf_member lf_kind lf_bits] in *.
  rewrite <- TL in Bo. unfold item_bytes. rewrite TB, TT, Bo.
  assert (INT : forall s w', enc = EInt s w' -> exists z, v = VInt z /\ Spec_Binary.fits s w' z /\ int_image e s w' z b).
  { intros s w' ->. destruct IM as (z & Hz & F & B). exists z. destruct v as [y|f|bb|ww]; cbn [int_value] in Hz; try discriminate; [|destruct PV'].
    injection Hz as <-. auto. }
  assert (ROI : forall z, v = VInt z -> c = A_UINT \/ c = A_INT -> exists s, t_role t = Id s /\ read_number s = Some z).
  { intros z -> Kc. destruct (String.eqb_spec (m_key x) "application-process-identifier") as [Ek|Ek].
    - destruct (PV' Ek) as (_ & P0).
      assert (R2 : exists z', (VInt z = VInt z' \/ (VInt z = VBool true /\ z' = 1%Z) \/ (VInt z = VBool false /\ z' = 0%Z)) /\ t_role t = Id ("0x" ++ format_X 2 z')).
      { destruct Kc as [-> | ->]; destruct (m_type x); try discriminate Ar; exact RO. }
      destruct R2 as (z' & [Q|[(Q & _)|(Q & _)]] & R2); try discriminate Q. injection Q as <-. eexists. split; [exact R2|]. apply read_number_hex, P0.
    - exists (str_of_Z z). split; [|apply read_number_str]. destruct Kc as [-> | ->]; destruct (m_type x); try discriminate Ar; exact RO. }
  assert (ROR : forall d, real_value v d -> c = A_FLOAT \/ c = A_DOUBLE -> exists s, t_role t = Id s /\ reads_as s d).
  { intros d RV Kc. destruct v as [z|f|bb|ww]; [| |destruct PV'|destruct PV'].
    - destruct (String.eqb_spec (m_key x) "application-process-identifier") as [Ek|Ek].
      + exfalso. destruct (PV' Ek) as ([P|P] & _); destruct Kc; congruence.
      + exists (str_of_Z z). split; [|apply int_read, RV]. destruct Kc as [-> | ->]; destruct (m_type x); try discriminate Ar; exact RO.
    - destruct (String.eqb_spec (m_key x) "application-process-identifier") as [Ek|Ek].
      + exfalso. assert (R2 : exists z', (VFloat f = VInt z' \/ (VFloat f = VBool true /\ z' = 1%Z) \/ (VFloat f = VBool false /\ z' = 0%Z)) /\ t_role t = Id ("0x" ++ format_X 2 z')).
        { destruct Kc as [-> | ->]; destruct (m_type x); try discriminate Ar; exact RO. }
        destruct R2 as (z' & [Q|[(Q & _)|(Q & _)]] & R2); discriminate Q.
      + exists (frepr f). split; [|apply float_read; assumption]. destruct Kc as [-> | ->]; destruct (m_type x); try discriminate Ar; exact RO. }
  destruct enc as [s w'| |].
  - destruct (INT s w' eq_refl) as (z & -> & F & (B1 & B2 & B3)). destruct (ROI z eq_refl) as (str & R1 & R2); [destruct s; destruct K as (-> & _); auto|].
    destruct s; destruct K as (-> & ->); (split; [exact B1|]); (split; [exact B2|]); exists str; (split; [exact R1|]); cbn [kind_name]; rewrite R2, B3; reflexivity.
  - destruct IM as (d & RV & TLa & SI). destruct K as (-> & ->). destruct (ROR d RV (or_introl eq_refl)) as (str & R1 & R2).
    assert (SI' := SI). destruct SI' as (B1 & B2 & _). split; [rewrite B1; reflexivity|]. split; [exact B2|]. exists str. split; [exact R1|]. cbn [kind_name]. exists d. split; [exact R2|]. exact SI.
  - destruct IM as (d & RV & SI). destruct K as (-> & ->). destruct (ROR d RV (or_intror eq_refl)) as (str & R1 & R2).
    assert (SI' := SI). destruct SI' as (B1 & B2 & _). split; [rewrite B1; reflexivity|]. split; [exact B2|]. exists str. split; [exact R1|]. cbn [kind_name]. exists d. split; [exact R2|]. exact SI.
Qed.

(** ** All leaves *)

Lemma sequence_nonempty : forall n c l, visible ms i (DSequence n c l) -> l <> [].
Proof.
  intros n c l V. apply visible_sequence in V. apply in_flat_map in V as (m & Hm & Hd). rewrite Forall_forall in Hg. apply Hg in Hm.
  unfold grammatical in Hm. repeat (apply andb_prop in Hm as (Hm & ?)).
  match goal with H : forallb definition_ok _ = true |- _ => rewrite forallb_forall in H; apply H in Hd end.
  cbn [definition_ok] in Hd. intros ->. cbn in Hd. rewrite andb_false_r in Hd. discriminate.
Qed.
Lemma some_leaf : forall p l ls, packet_leaves ms i p l ls -> l <> [] -> ls <> [].
Proof.
  intros p l ls H. induction H as [p|p m r u c w s ls I H IH|p m n cm l r ls ls' E V H1 IH1 H2 IH2]; intros N.
  - congruence.
  - discriminate.
  - intros Q. apply app_eq_nil in Q as (Q & _). exact (IH1 (sequence_nonempty _ _ _ V) Q).
Qed.

Definition ready (p : list member) (l : list member) (b : list Z) : Prop :=
  forall ls its, packet_leaves ms i p l ls -> Forall one_clause ls -> Forall (plain_leaf e) ls ->
    Forall (fun lf => Forall (fun k => member_ok k = true) (lf_path lf)) ls -> Forall2 item_of ls its -> packet_bytes its b.

Variable mds : list definition.
Hypothesis MD : incl mds ds.
Hypothesis SQ : forall n c l, In (DSequence n c l) ds -> ~ In n NUMBER_NAMES.

Lemma struct_ready :
  (forall t w b, struct_image ds mds e t w b -> forall p n cm l, element t = TName n -> visible ms i (DSequence n cm l) ->
     clauses_at p = [wc_items w] -> ready p l b)
  /\ (forall mem l b, members_image ds mds e mem l b -> forall p full, clauses_at p = [full] -> NoDup (map wi_key full) -> incl l full -> ready p mem b).
Proof.
  apply image_mut.
  - intros t n c ml cm l b E H _ IH p n' cm' l' E' V C ls its PL OC PF OK IT.
    assert (n' = n) by congruence. subst n'. assert (V' := visible_sequence _ _ _ V). assert (Q := one_def _ _ (MD _ H) V' eq_refl). injection Q as <- <-.
    cbn [wc_items] in C. refine (IH p l C _ (incl_refl _) ls its PL OC PF OK IT).
    destruct ls as [|lf ls]; [destruct (some_leaf _ _ _ PL (sequence_nonempty _ _ _ V) eq_refl)|].
    assert (LP := leaves_path _ _ _ _ _ PL). apply Forall_inv in LP as (q & LP). apply Forall_inv in OC as (OC & _).
    destruct (OC p q LP) as (_ & ND1). rewrite C in ND1. exact (Forall_inv ND1).
  - intros p full C N _ ls its PL _ _ _ IT. inversion PL; subst. inversion IT; subst. constructor.
  - intros x mem v c r enc b b' NW EN IM _ IH p full C N IN ls its PL OC PF OK IT.
    inversion PL as [|? ? ? u k w st ls' TY PL'|? ? n cm l ? ls1 ls2 E V PL1 PL2]; subst.
    + inversion OC as [|? ? OC1 OC2]; subst. inversion PF as [|? ? PF1 PF2]; subst. inversion OK as [|? ? OK1 OK2]; subst. inversion IT as [|? t ? its' IT1 IT2]; subst.
      constructor.
      * assert (FV : fixed_values (mkleaf p x u k w st) = [v]) by (apply (fixed_one _ _ _ _ _ _ full v c C N); apply IN; left; reflexivity).
        eapply leaf_sent; try eassumption. apply (fixed_ok (mkleaf p x u k w st)); [exact OK1|]. rewrite FV. left. reflexivity.
      * eapply IH; try eassumption. intros y Hy. apply IN. right. exact Hy.
    + exfalso. apply visible_sequence in V. apply (SQ _ _ _ V).
      inversion EN as [? ? ? ? ? ? Q|? ? ? ? ? Q|? ? ? ? Q|? ? ? Q|? n0 s w E' P B Hw|? E' B|? E' B]; subst; try (rewrite <- Q in E; discriminate E);
        rewrite E in E'; injection E' as E'; subst n; [|simpl; tauto|simpl; tauto].
      apply (in_map fst) in P. simpl in P |- *. tauto.
  - intros x mem w c r b b' SI IHs _ IHm p full C N IN ls its PL OC PF OK IT.
    assert (IW : In (WI (m_key x) (VWith w) c) full) by (apply IN; left; reflexivity).
    inversion PL as [|? ? ? u k w0 st ls' TY PL'|? ? n cm l ? ls1 ls2 E V PL1 PL2]; subst.
    + exfalso. inversion SI as [t n c0 ml cm l b0 E H MI]; subst.
      assert (X : forall d, visible ms i d -> def_name d = n -> exists c l, d = DSequence n c l).
      { intros d Vd Ed. destruct (visible_input _ Vd) as (d0 & H0 & S0). assert (Q := one_def _ _ (MD _ H) H0).
        rewrite (same_definition_name _ _ S0) in Ed. specialize (Q (eq_sym Ed)). subst d0. cbn [same_definition] in S0. eauto. }
      destruct TY as [t k w E' NB W|t E'|k0 n'|t n' u cm' k w E' Vd W|t n' cm' l' w E' Vd W]; try congruence.
      * rewrite E' in E. subst t. inversion W; subst; discriminate.
      * discriminate E.
      * assert (n' = n) by congruence. subst n'. destruct (X _ Vd eq_refl) as (? & ? & Q). discriminate Q.
      * assert (n' = n) by congruence. subst n'. destruct (X _ Vd eq_refl) as (? & ? & Q). discriminate Q.
    + apply Forall_app in OC as (OC1 & OC2). apply Forall_app in PF as (PF1 & PF2). apply Forall_app in OK as (OK1 & OK2).
      apply Forall2_app_inv_l in IT as (its1 & its2 & IT1 & IT2 & ->). apply bytes_app.
      * refine (IHs (p ++ [x]) n cm l E V _ ls1 its1 PL1 OC1 PF1 OK1 IT1). rewrite clauses_snoc, C. cbn [flat_map]. rewrite (narrow_one _ _ _ _ N IW), app_nil_r.
        assert (L : (length (clauses_at (p ++ [x])) <= 1)%nat).
        { destruct ls1 as [|lf ls1]; [destruct (some_leaf _ _ _ PL1 (sequence_nonempty _ _ _ V) eq_refl)|].
          assert (LP := leaves_path _ _ _ _ _ PL1). apply Forall_inv in LP as (q & LP). apply Forall_inv in OC1 as (OC1 & _). exact (proj1 (OC1 _ _ LP)). }
        rewrite clauses_snoc, C in L. cbn [flat_map] in L. rewrite (narrow_one _ _ _ _ N IW), app_length in L. cbn [length app] in L.
        destruct (own_clause x); [reflexivity|cbn [length] in L; lia].
      * eapply IHm; try eassumption. intros y Hy. apply IN. right. exact Hy.
Qed.
End Sent.

(** ** Both runs *)

Lemma runs_sent : forall names fuel fuel' e mn msgs target input fs out fs' out',
  Forall (fun m => grammatical m = true) input -> word target ->
  (forall n c l, In (DSequence n c l) (definitions input) -> ~ In n NUMBER_NAMES) ->
  run fuel (GenerateBinary names (Some e)) input fs = (out, Ok tt) ->
  run fuel' (GenerateCosmos mn msgs target) input fs' = (out', Ok tt) -> folder_get fs' (target ++ ".txt") = None ->
  exists ms, Forall2 same_module input ms
    /\ forall i m, first_named ms i m -> mod_name m = mn -> one_clause_each ms i m msgs -> quiet_messages ms i m msgs ->
       exists text ps, folder_get out' (target ++ ".txt") = Some text /\ read_telemetry text = Some ps
         /\ Forall2 (fun n p => p_name p = n
              /\ forall cm k r w ls, In (DSequence n cm (k :: r)) (mod_defs m) -> m_with k = Some w -> (forall y, In y r -> m_with y = None) ->
                 complete_in_order (mod_defs m) (m_type k) w -> packet_leaves ms i [] [k] ls -> Forall (plain_leaf e) ls ->
                 exists s b its rest, folder_get out (lowerize (c_name n) ++ ".bin") = Some s /\ byte_string s b
                   /\ p_items p = its ++ rest /\ packet_bytes its b /\ (r = [] -> rest = [])) msgs ps.
Proof.
  intros names fuel fuel' e mn msgs target input fs out fs' out' Hg Wt SQ H H' N.
  destruct (run_bundle _ _ _ _ _ _ _ Hg Wt H' N) as (bun & Ha & R).
  exists (all_modules bun). assert (Sm := proj1 (accepted_same _ _ Ha)). split; [exact Sm|]. intros i m F E O Q.
  destruct (R i m F E O Q) as (text & ps & T1 & T2 & P). exists text, ps. split; [exact T1|]. split; [exact T2|].
  assert (Hm := proj1 F).
  assert (O' : forall n, In n msgs -> forall cm l ls, In (DSequence n cm l) (mod_defs m) -> packet_leaves (all_modules bun) i [] l ls -> Forall one_clause ls).
  { intros n Hn cm l ls Hd Pl. exact (O n cm l ls Hn Hd Pl). }
  clear O Q R H' T1 T2. induction P as [|n p msgs ps (cm & l & ls & Hd & Pl & _ & Pn & _ & It) P IH]; [constructor|].
  constructor; [|apply IH; intros x Hx; apply O'; right; exact Hx].
  split; [exact Pn|]. intros cm' k r w ls' Hd' Hw Hr HC Pl' Hp.
  assert (V : forall c x, In (DSequence n c x) (mod_defs m) -> visible (all_modules bun) i (DSequence n c x)).
  { intros c x Hx. exists i, m. split; [apply reach_here|auto]. }
  assert (X := visible_unique _ _ Ha i _ _ (V _ _ Hd) (V _ _ Hd') eq_refl). injection X as -> ->.
  destruct (Forall2_in_r _ _ _ _ _ _ Sm (nth_error_In _ _ Hm)) as (m0 & Hm0 & S0).
  assert (SS : forall n c l, In (DSequence n c l) (mod_defs m0) <-> In (DSequence n c l) (mod_defs m)) by (intros ? ? ?; symmetry; apply (same_sequences _ _ _ _ _ (proj2 (proj2 (proj2 S0))))).
  assert (Hd0 := proj2 (SS _ _ _) Hd').
  assert (HC0 : complete_in_order (mod_defs m0) (m_type k) w).
  { clear - HC SS. revert HC. generalize (m_type k) as t. intros t HC. revert t w HC. fix IH 3. intros t w [t0 n c ml cm l E1 E2 E3 E4 E5].
    apply (complete _ _ n c ml); auto; [apply SS, E2|]. intros k0 w0 kc x Hx1 Hx2 Hx3. apply IH. exact (E5 k0 w0 kc x Hx1 Hx2 Hx3). }
  destruct (binary_written_struct _ _ _ _ _ _ _ _ _ _ _ _ Hg H Hm0 Hd0 (ex_intro _ [] (ex_intro _ r (conj eq_refl (conj Hw Hr)))) HC0) as (s & b & B1 & B2 & SI).
  assert (OC := O' n (or_introl eq_refl) _ _ _ Hd' Pl). assert (OK := leaves_ok _ _ Hg Ha _ _ _ _ _ _ Hm Hd' Pl).
  assert (Y : exists n' c' l' ls1 ls2, element (m_type k) = TName n' /\ visible (all_modules bun) i (DSequence n' c' l')
      /\ packet_leaves (all_modules bun) i [k] l' ls1 /\ packet_leaves (all_modules bun) i [] r ls2 /\ ls = ls1 ++ ls2 /\ ls' = ls1).
  { inversion HC0 as [t n' c' ml cm0 l0 E1 E2 E3 E4 E5]; subst.
    assert (MD : In (DSequence n' c' ml) (definitions input)) by (apply in_flat_map; eauto).
    inversion Pl as [|? ? ? u c wd st lsr TY Pr|? ? n2 cm2 l2 ? ls1 ls2 E V2 Pl1 Pl2]; subst.
    - exfalso. eapply (item_not_nested _ _ Ha); [exact TY|exact E1|]. exists i, m. split; [apply reach_here|]. split; [exact Hm|]. apply SS. exact E2.
    - exists n2, cm2, l2, ls1, ls2. repeat (split; [assumption|]). split; [reflexivity|].
      assert (PP : packet_leaves (all_modules bun) i [] [k] (ls1 ++ [])) by (eapply pl_nested; [exact E|exact V2|exact Pl1|constructor]).
      rewrite app_nil_r in PP. exact (leaves_unique _ _ Ha _ _ _ _ _ Pl' PP). }
  destruct Y as (n' & c' & l' & ls1 & ls2 & E1 & V1 & P1 & P2 & -> & ->).
  apply Forall2_app_inv_l in It as (its & rest & I1 & I2 & Ei). apply Forall_app in OC as (OC & _). apply Forall_app in OK as (OK & _).
  exists s, b, its, rest. split; [exact B1|]. split; [exact B2|]. split; [exact Ei|]. split.
  - refine (proj1 (struct_ready input bun i e Ha Hg (mod_defs m0) _ SQ) _ _ _ SI [k] n' c' l' E1 V1 _ ls1 its P1 OC Hp _ I1).
    + intros d Dd. apply in_flat_map. eauto.
    + unfold clauses_at. cbn [fold_left]. unfold own_clause. rewrite Hw. reflexivity.
    + eapply Forall_impl; [|exact OK]. intros lf (A & _). exact A.
  - intros ->. inversion P2; subst. inversion I2; subst. reflexivity.
Qed.
