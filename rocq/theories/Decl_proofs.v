(** * Proofs: the types of struct fields are declared *)
From Coq Require Import Permutation Lia.
From Verif Require Import Base PyNum PyStr Ast Size Processor Bundle Sorter CCommon GenCfs GenC GenBinary Main Spec_Grammar
  Spec_Check Spec_Bundle Spec_Gen Spec_C Lib_proofs Str_proofs Name_proofs Check_proofs Gen_proofs Accept_proofs Bundle_proofs Field_proofs Order_proofs Cdata_proofs Reject_proofs Cfs_proofs.
Open Scope string_scope.
Open Scope list_scope.

(** ** <stdint.h> *)

Lemma map_direct_std : forall t cm, map_direct t = Ok cm -> mem (cm_ctype cm) POSIX_DEFINED_TYPES = true -> cm_stdint cm = true.
Proof.
  intros t cm H P. unfold map_direct in H. destruct (get_c_type t) as [ct|]; [|discriminate].
  apply bind_ok in H. destruct H as (w & _ & H). apply bind_ok in H. destruct H as (u & _ & H).
  destruct ct; try (injection H as <-; discriminate P).
  destruct (mem ("uint" ++ str_of_Z (next_bit_size w) ++ "_t") POSIX_DEFINED_TYPES) eqn:E; injection H as <-; [reflexivity|discriminate P].
Qed.

Lemma field_std : forall fuel defs sds k f sb si, convert_member fuel defs sds k = Ok (f, sb, si) ->
  In (cf_type f) POSIX_DEFINED_TYPES -> si = true.
Proof.
  intros fuel defs sds k f sb si H P. apply mem_In in P. unfold convert_member in H.
  apply bind_ok in H. destruct H as (cm & _ & H). apply bind_ok in H. destruct H as ([[[bits ct] sb'] si'] & H1 & H2).
  injection H2 as <- <- <-. cbn [cf_type] in P. destruct (find _ _) as [[n t]|].
  - apply bind_ok in H1. destruct H1 as (cm' & Hd & H1). injection H1 as <- <- <- <-.
    rewrite (map_direct_std _ _ Hd P). apply orb_true_r.
  - destruct (mem (lowerize (cm_ctype cm)) POSIX_DEFINED_TYPES) eqn:E; injection H1 as <- <- <- <-; [apply orb_true_r|].
    exfalso. revert P E. generalize (cm_ctype cm). intros s P E. apply mem_In in P. simpl in P.
    repeat (destruct P as [<-|P]; [discriminate E|]). destruct P.
Qed.

Lemma convert_members_std : forall fuel defs sds wch name l fields acc fields' acc',
  convert_members fuel defs sds wch name l fields acc = Ok (fields', acc') ->
  (cd_stdint acc = true -> cd_stdint acc' = true)
  /\ forall k f sb, In k l -> convert_member fuel defs sds k = Ok (f, sb, true) -> cd_stdint acc' = true.
Proof.
  intros fuel defs sds wch name. induction l as [|k l IH]; intros fields acc fields' acc' H; simpl in H.
  - injection H as <- <-. split; [auto|]. intros k f sb [].
  - apply bind_ok in H. destruct H as ([[f sb] si] & Hc & H).
    apply bind_ok in H. destruct H as (acc1 & Ha & H). destruct (IH _ _ _ _ H) as (I1 & I2).
    assert (A : (cd_stdint acc = true \/ si = true) -> cd_stdint acc1 = true).
    { intros D. destruct (m_with k).
      - apply bind_ok in Ha. destruct Ha as (c & _ & Ha). injection Ha as <-. simpl. destruct D as [->| ->]; rewrite ?orb_true_r; reflexivity.
      - injection Ha as <-. simpl. destruct D as [->| ->]; rewrite ?orb_true_r; reflexivity. }
    split; [auto|]. intros k' f' sb' [<-|Hk] Hc'; [|eapply I2; eassumption].
    rewrite Hc in Hc'. injection Hc' as _ _ ->. auto.
Qed.

Lemma convert_definitions_std : forall fuel defs sds note wch l acc acc',
  convert_definitions fuel defs sds note wch l acc = Ok acc' ->
  (cd_stdint acc = true -> cd_stdint acc' = true)
  /\ forall n c ms k f sb, In (DSequence n c ms) l -> In k ms -> convert_member fuel defs sds k = Ok (f, sb, true) -> cd_stdint acc' = true.
Proof.
  intros fuel defs sds note wch. induction l as [|d l IH]; intros acc acc' H; simpl in H.
  - injection H as <-. split; [auto|]. intros n c ms k f sb [].
  - apply bind_ok in H. destruct H as (a & Ha & H). destruct (IH _ _ H) as (I1 & I2).
    assert (A : (cd_stdint acc = true -> cd_stdint a = true)
      /\ forall n c ms k f sb, DSequence n c ms = d -> In k ms -> convert_member fuel defs sds k = Ok (f, sb, true) -> cd_stdint a = true).
    { destruct d as [n c ms|n c ms|n c ms|n t c]; simpl in Ha.
      - apply bind_ok in Ha. destruct Ha as (x & Hx & Ha). injection Ha as <-. simpl. split; [intros ->; reflexivity|].
        intros n' c' ms' k f sb E Hk Hm. injection E as -> -> ->. unfold convert_sequence in Hx.
        apply bind_ok in Hx. destruct Hx as ([fields a] & Hc & Hx). apply bind_ok in Hx. destruct Hx as (u & _ & Hx).
        injection Hx as <-. apply convert_members_std in Hc. destruct Hc as (_ & Hc). simpl. rewrite (Hc _ _ _ Hk Hm). apply orb_true_r.
      - injection Ha as <-. simpl. split; [intros ->; reflexivity|]. intros; discriminate.
      - injection Ha as <-. simpl. split; [intros ->; reflexivity|]. intros; discriminate.
      - apply bind_ok in Ha. destruct Ha as (s & _ & Ha). injection Ha as <-. split; [destruct s; auto|]. intros; discriminate. }
    destruct A as (A1 & A2). split; [auto|]. intros n c ms k f sb [E|Hin] Hk Hm; [subst d; apply I1; eapply A2; eauto|eapply I2; eassumption].
Qed.

Lemma generated_std : forall fuel b bm c n cm ms k f, generated fuel b bm c ->
  In (DSequence n cm ms) (mod_defs (bm_mod bm)) -> In k ms ->
  field_for fuel (all_defs b) (simple_definition_list b bm) k f -> In (cf_type f) POSIX_DEFINED_TYPES -> cd_stdint c = true.
Proof.
  intros fuel b bm c n cm ms k f H Hd Hk (sb & si & Hm) P.
  assert (G : forall inc note wch, module_cdata fuel b bm inc note wch = Ok c -> cd_stdint c = true).
  { intros inc note wch Hc. unfold module_cdata in Hc. apply bind_ok in Hc. destruct Hc as (sorted & Hs & Hc).
    apply bind_ok in Hc. destruct Hc as (c1 & Hc1 & Hc).
    apply (Permutation_in _ (Permutation_sym (sorted_perm _ _ _ Hs))) in Hd.
    assert (E : si = true) by (eapply field_std; eassumption). subst si.
    assert (E : cd_stdint c1 = true) by (eapply (proj2 (convert_definitions_std _ _ _ _ _ _ _ _ Hc1)); eassumption).
    injection Hc as <-. destruct (mod_comment (bm_mod bm)) as [x|]; [|exact E]. destruct (String.eqb (cm_text x) ""); exact E. }
  destruct H as [H|[H|(e & H)]]; eapply G; exact H.
Qed.

(** ** C types *)

Lemma number_c_type : forall t, (exists r, t = TInteger r) \/ (exists r, t = TReal r) ->
  get_c_type t <> Some A_BOOL /\ get_c_type t <> Some A_STRING.
Proof.
  intros t [(r & ->)|(r & ->)]; unfold get_c_type, asn1_type; destruct r as [[x y]|]; cbn [type_begin type_end type_name];
    [destruct (num_lt _ _); cbn; [split; discriminate|]; destruct (num_le _ _); split; discriminate|split; discriminate| |split; discriminate].
  destruct (num_lt _ _); cbn; [split; discriminate|]. destruct (_ && _); [split; discriminate|].
  destruct (_ && _); split; discriminate.
Qed.

Lemma map_direct_type : forall t cm, map_direct t = Ok cm -> (exists r, t = TInteger r) \/ (exists r, t = TReal r) ->
  In (cm_ctype cm) C_TYPES.
Proof.
  intros t cm H Ht. unfold map_direct in H. destruct (get_c_type t) as [ct|] eqn:G; [|discriminate].
  apply bind_ok in H. destruct H as (w & _ & H). apply bind_ok in H. destruct H as (u & _ & H).
  destruct ct; try (injection H as <-; simpl; tauto).
  - exfalso. destruct (number_c_type t Ht) as (A & B). congruence.
  - destruct (mem _ _) eqn:E; injection H as <-; [|simpl; tauto]. simpl cm_ctype. apply mem_In in E.
    change C_TYPES with (["char"; "int"; "float"; "double"; "unsigned long long"] ++ POSIX_DEFINED_TYPES)%list.
    apply in_or_app. right. exact E.
  - exfalso. destruct (number_c_type t Ht) as (A & B). congruence.
Qed.

(** Position of a declaration and of its definition. *)
Lemma concat_position : forall A B (R : A -> list B -> Prop) l ls i x,
  Forall2 R l ls -> nth_error (concat ls) i = Some x ->
  exists p a bs r, nth_error l p = Some a /\ R a bs /\ nth_error bs r = Some x
    /\ i = (length (concat (firstn p ls)) + r)%nat /\ nth_error ls p = Some bs.
Proof.
  intros A B R l ls i x F. revert i. induction F as [|a bs l ls H F IH]; intros i Hi; [destruct i; discriminate|].
  simpl in Hi. destruct (Nat.lt_ge_cases i (length bs)) as [L|L].
  - rewrite nth_error_app1 in Hi by exact L. exists 0%nat, a, bs, i. auto.
  - rewrite nth_error_app2 in Hi by exact L. destruct (IH _ Hi) as (p & a' & bs' & r & H1 & H2 & H3 & H4 & H5).
    exists (S p), a', bs', r. split; [exact H1|]. split; [exact H2|]. split; [exact H3|]. split; [|exact H5].
    simpl. rewrite app_length. lia.
Qed.

Lemma concat_nth : forall B (ls : list (list B)) p bs r x, nth_error ls p = Some bs -> nth_error bs r = Some x ->
  nth_error (concat ls) (length (concat (firstn p ls)) + r) = Some x.
Proof.
  intros B. induction ls as [|a ls IH]; intros p bs r x Hp Hr; [destruct p; discriminate|].
  destruct p as [|p]; simpl in *.
  - injection Hp as ->. rewrite nth_error_app1; [exact Hr|]. apply nth_error_Some. congruence.
  - rewrite app_length, nth_error_app2 by lia. replace _ with (length (concat (firstn p ls)) + r)%nat by lia.
    eapply IH; eassumption.
Qed.

Lemma firstn_concat_le : forall B (ls : list (list B)) p q bs, (p < q)%nat -> nth_error ls p = Some bs ->
  (length (concat (firstn p ls)) + length bs <= length (concat (firstn q ls)))%nat.
Proof.
  intros B. induction ls as [|a ls IH]; intros p q bs L Hp; [destruct p; discriminate|].
  destruct q as [|q]; [lia|]. destruct p as [|p]; simpl in *.
  - injection Hp as ->. rewrite app_length. lia.
  - rewrite !app_length. specialize (IH p q bs ltac:(lia) Hp). lia.
Qed.

(** What a definition that is no simple type introduces. *)
Lemma declares_introduces : forall fuel defs sds d ds, declares fuel defs sds d ds ->
  match d with DSequence _ _ _ | DEnumerated _ _ _ => True | _ => False end ->
  exists x, ds = [x] /\ introduces x (c_name (def_name d)).
Proof. intros fuel defs sds d ds D H. destruct D; try destruct H; eexists; (split; [reflexivity|]); reflexivity. Qed.

(** Every use of a type of the same module comes after its definition, or
    it is imported. *)
Lemma use_cases : forall names input b bm fuel sorted i d k n,
  config names input b -> In bm (b_modules b) -> sorted_definitions fuel (bm_mod bm) = Ok sorted ->
  nth_error sorted i = Some d -> In k (members_of d) -> element (m_type k) = TName n ->
  (exists j d', (j < i)%nat /\ nth_error sorted j = Some d' /\ def_name d' = n)
  \/ exists it im, In it (mod_imports (bm_mod bm)) /\ In im (b_modules b) /\ bm_name im = imp_module it
       /\ In n (imp_names it) /\ In n (map def_name (mod_defs (bm_mod im))).
Proof.
  intros names input b bm fuel sorted i d k n C Hbm Hs Hi Hk He.
  destruct (sorted_spec fuel (bm_mod bm)) as [G|(l & G1 & G2 & G3)]; [congruence|].
  rewrite Hs in G1. injection G1 as <-.
  destruct (in_dec string_dec n (initially_defined (bm_mod bm))) as [I|I]; [right|left; eapply sorted_positions; eassumption].
  unfold initially_defined in I. apply in_app_or in I. destruct I as [I|I].
  - exfalso. assert (Hd : In d (mod_defs (bm_mod bm))) by (apply (Permutation_in _ G2); eapply nth_error_In; exact Hi).
    destruct (field_member names input b bm d k C Hbm Hd Hk) as (_ & T & _).
    assert (Hc : is_name_capital n = true).
    { clear - T He. revert T He. induction (m_type k); simpl; intros T He; try discriminate.
      - apply IHa; assumption.
      - injection He as ->. exact T. }
    apply (capital_not_keyword _ Hc). simpl in *. intuition.
  - unfold flatten in I. apply in_concat in I. destruct I as (ns & Hns & I). apply in_map_iff in Hns.
    destruct Hns as (it & <- & Hit). destruct (config_imported _ _ _ _ _ C Hbm Hit) as (j & im & Hj & Him & En & Hincl).
    exists it, im. split; [exact Hit|]. split; [eapply nth_error_In; exact Him|]. auto.
Qed.

Lemma field_posix : forall names input b bm d k fuel f n, config names input b -> In bm (b_modules b) ->
  In d (mod_defs (bm_mod bm)) -> In k (members_of d) ->
  field_for fuel (all_defs b) (simple_definition_list b bm) k f ->
  element (m_type k) = TName n -> is_name_capital n = true -> In n POSIX_INTEGER_NAMES ->
  In (cf_type f) POSIX_DEFINED_TYPES.
Proof.
  intros names input b bm d k fuel f n C Hbm Hd Hk Hf He Hc Hp.
  destruct Hf as (sb & si & H). unfold convert_member in H.
  apply bind_ok in H. destruct H as (cm & Hm & H). rewrite (map_member_named b k fuel n (element_name _ _ He) Hc) in Hm.
  assert (T : cm_ctype cm = c_name n).
  { destruct (resolve _ _) as [| |[]|]; try (injection Hm as <-; reflexivity).
    apply bind_ok in Hm. destruct Hm as (? & _ & Hm). injection Hm as <-. reflexivity. }
  rewrite T in H. apply (posix_lower n Hc) in Hp. assert (Hp' := Hp). apply mem_In in Hp'. rewrite Hp' in H.
  assert (E : exists ch r, lowerize (c_name n) = String ch r /\ is_upper ch = false).
  { simpl in Hp. repeat (destruct Hp as [<-|Hp]; [do 2 eexists; split; reflexivity|]). destruct Hp. }
  destruct E as (ch & r & E & Hu). rewrite E in H. rewrite (sds_find_lower names input b bm ch r C Hbm Hu) in H.
  apply bind_ok in H. destruct H as ([[[bits ct] sb'] si'] & H1 & H2). injection H2 as <- _ _. simpl cf_type.
  injection H1 as <- <- _ _. rewrite <- E. exact Hp.
Qed.

Lemma STDINT_in : forall t, In t POSIX_DEFINED_TYPES -> In t C_TYPES.
Proof.
  intros t H. change C_TYPES with (["char"; "int"; "float"; "double"; "unsigned long long"] ++ POSIX_DEFINED_TYPES)%list.
  apply in_or_app. right. exact H.
Qed.

Lemma map_direct_array : forall n e cm, match element e with TInteger _ | TReal _ => True | _ => False end ->
  map_direct (TArray n e) <> Ok cm.
Proof.
  intros n e cm H. assert (T : type_name (TArray n e) = "INTEGER" \/ type_name (TArray n e) = "REAL").
  { clear - H. simpl. induction e; simpl in *; try contradiction; auto. }
  unfold map_direct, get_c_type, asn1_type. cbn [type_begin type_end bind]. destruct T as [-> | ->]; discriminate.
Qed.

Lemma has_c_type_bundle : forall names input b t, config names input b ->
  has_c_type (definitions input) t -> has_c_type (all_defs b) t.
Proof.
  intros names input b t C H d Hd Et. assert (A := config_accepted _ _ _ C). destruct (accepted_same _ _ A) as (Hs & _).
  apply same_definitions in Hs. destruct (Forall2_in_r _ _ _ _ _ _ Hs Hd) as (d0 & Hd0 & S).
  specialize (H d0 Hd0). rewrite (same_definition_name _ _ S) in Et. specialize (H Et).
  destruct d0; simpl in S; try (subst d; exact H). destruct S as (l' & -> & _). exact I.
Qed.

Lemma field_declared : forall names input b bm fuel c i cm s cms ms fields q k f,
  Forall (fun m => grammatical m = true) input -> build_from_config names input = Ok b ->
  In bm (b_modules b) -> generated fuel b bm c ->
  nth_error (cd_data c) i = Some (CStruct cm (c_name s) fields) ->
  In (DSequence s cms ms) (mod_defs (bm_mod bm)) -> nth_error ms q = Some k -> nth_error fields q = Some f ->
  has_c_type (definitions input) (element (m_type k)) ->
  (In (cf_type f) C_TYPES /\ (In (cf_type f) STDINT_TYPES -> cd_stdint c = true))
  \/ (exists j x, (j < i)%nat /\ nth_error (cd_data c) j = Some x /\ introduces x (cf_type f))
  \/ (exists it im, In it (mod_imports (bm_mod bm)) /\ In im (b_modules b) /\ bm_name im = imp_module it
        /\ forall fuel' c', generated fuel' b im c' -> exists x, In x (cd_data c') /\ introduces x (cf_type f)).
Proof.
  intros names input b bm fuel c i cm s cms ms fields q k f Hg Hb Hbm H Hi Hs Hk Hf U.
  assert (C : config names input b) by (split; assumption). apply (has_c_type_bundle _ _ _ _ C) in U.
  destruct (generated_data _ _ _ _ H) as (sorted & dss & Hso & E & F).
  assert (P := sorted_perm _ _ _ Hso). rewrite E in Hi.
  destruct (concat_position _ _ _ _ _ _ _ F Hi) as (p & d & bs & r & Hp & D & Hr & Ei & Hbs).
  assert (Hd : In d (mod_defs (bm_mod bm))) by (apply (Permutation_in _ P); eapply nth_error_In; exact Hp).
  assert (Ed : d = DSequence s cms ms).
  { assert (N : c_name (def_name d) = c_name s).
    { inversion D; subst; simpl in *; destruct r as [|[|]]; simpl in Hr; try discriminate; try (injection Hr as <- <- <-; reflexivity). }
    assert (Hda : In d (all_defs b)) by (apply in_all_defs; eauto).
    assert (Hsa : In (DSequence s cms ms) (all_defs b)) by (apply in_all_defs; eauto).
    apply (config_unique _ _ _ _ _ C); try assumption. simpl.
    apply c_name_inj; [apply capital_name; apply (config_capital _ _ _ _ C); exact Hda
      |apply capital_name; apply (config_capital _ _ _ _ C Hsa)|exact N]. }
  subst d. inversion D as [|n0 c0 l0 fields0 FF| |]; subst. destruct r as [|[|]]; simpl in Hr; try discriminate.
  injection Hr as Ec Ef. subst fields0.
  assert (Hff : field_for fuel (all_defs b) (simple_definition_list b bm) k f).
  { exact (Forall2_nth _ _ _ _ _ _ _ _ FF Hk Hf). }
  assert (Hkm : In k (members_of (DSequence s cms ms))) by (eapply nth_error_In; exact Hk).
  assert (STD : In (cf_type f) STDINT_TYPES -> cd_stdint c = true)
    by (intros G; eapply generated_std; try eassumption).
  destruct (field_member names input b bm _ k C Hbm Hd Hkm) as (_ & T & _ & NN).
  destruct (element (m_type k)) as [r|r| | |sk len|len e|n] eqn:He.
  - (* REAL *)
    left. split; [|exact STD]. destruct (m_type k) as [r'|r'| | |sk' len'|len' e'|n'] eqn:Et; simpl in He; try discriminate.
    + destruct (field_direct names input b bm k fuel f C Hbm Hff) as (cm' & Hcm & -> & _); [rewrite Et; exact I|].
      apply (map_direct_type _ _ Hcm). right. exists r'. exact Et.
    + exfalso. destruct Hff as (sb & si & Hff). unfold convert_member, map_member in Hff.
      assert (Ev : type_name (m_type k) = "REAL") by (rewrite Et; simpl; clear - He; induction e'; simpl in *; try discriminate; auto).
      rewrite Ev in Hff. change (mem (c_name "REAL") ["INTEGER"; "REAL"]) with true in Hff. cbv iota in Hff.
      apply bind_ok in Hff. destruct Hff as (cm' & Hcm & _). rewrite Et in Hcm. revert Hcm. apply map_direct_array.
      rewrite He. exact I.
  - (* INTEGER *)
    left. split; [|exact STD]. destruct (m_type k) as [r'|r'| | |sk' len'|len' e'|n'] eqn:Et; simpl in He; try discriminate.
    + destruct (field_direct names input b bm k fuel f C Hbm Hff) as (cm' & Hcm & -> & _); [rewrite Et; exact I|].
      apply (map_direct_type _ _ Hcm). left. exists r'. exact Et.
    + exfalso. destruct Hff as (sb & si & Hff). unfold convert_member, map_member in Hff.
      assert (Ev : type_name (m_type k) = "INTEGER") by (rewrite Et; simpl; clear - He; induction e'; simpl in *; try discriminate; auto).
      rewrite Ev in Hff. change (mem (c_name "INTEGER") ["INTEGER"; "REAL"]) with true in Hff. cbv iota in Hff.
      apply bind_ok in Hff. destruct Hff as (cm' & Hcm & _). rewrite Et in Hcm. revert Hcm. apply map_direct_array.
      rewrite He. exact I.
  - congruence.
  - (* BOOLEAN *)
    left. split; [|exact STD]. destruct (field_boolean names input b bm k fuel f C Hbm Hff He) as (-> & _). simpl. tauto.
  - (* strings *)
    left. split; [|exact STD]. destruct (field_string names input b bm k fuel f C Hbm Hff _ _ He) as (-> & _). simpl. tauto.
  - exfalso. clear - He. induction (m_type k); simpl in He; try discriminate. auto.
  - (* defined types *)
    assert (Hc : is_name_capital n = true).
    { clear - T He. revert T He. induction (m_type k); simpl; intros T He; try discriminate; [apply IHa; assumption|].
      injection He as ->. exact T. }
    destruct (in_dec string_dec n POSIX_INTEGER_NAMES) as [Np|Np].
    { left. split; [|exact STD]. apply STDINT_in. eapply field_posix; eassumption. }
    assert (K : forall d', In d' (all_defs b) -> def_name d' = n ->
      In (cf_type f) C_TYPES \/ (cf_type f = c_name n /\ match d' with DSequence _ _ _ | DEnumerated _ _ _ => True | _ => False end)).
    { intros d' Hd' En. specialize (U d' Hd' ltac:(rewrite En; reflexivity)). destruct d' as [n' c' l'|n' c' l'|n' c' l'|n' t' c']; simpl in En; subst n'.
      - right. split; [|exact I]. eapply field_named; try eassumption; reflexivity.
      - destruct U.
      - right. split; [|exact I]. eapply field_named; try eassumption; reflexivity.
      - left. destruct (field_simple names input b bm _ k fuel f C Hbm Hd Hkm Hff n t' c' He Hd') as (_ & G).
        destruct (G Np) as (cm' & Hcm & -> & _). apply (map_direct_type _ _ Hcm U). }
    destruct (use_cases names input b bm fuel sorted p _ k n C Hbm Hso Hp Hkm He) as [(j & d' & Lj & Hj & En)|(it & im & Hit & Him & En & _ & Hn)].
    + assert (Hd' : In d' (all_defs b)).
      { apply in_all_defs. exists bm. split; [exact Hbm|]. apply (Permutation_in _ P). eapply nth_error_In. exact Hj. }
      destruct (K d' Hd' En) as [G|(G1 & G2)]; [left; split; [exact G|exact STD]|]. right. left.
      destruct (nth_error dss j) as [bs'|] eqn:Hb'.
      2:{ exfalso. apply nth_error_None in Hb'. assert (L := Forall2_length _ _ _ _ _ F). assert (Hj' : (j < length sorted)%nat) by (apply nth_error_Some; congruence). lia. }
      assert (D' := Forall2_nth _ _ _ _ _ _ _ _ F Hj Hb'). destruct (declares_introduces _ _ _ _ _ D' G2) as (x & Ex & Ix).
      exists (length (concat (firstn j dss)) + 0)%nat, x. split; [|split].
      * assert (L := firstn_concat_le _ dss j p bs' Lj Hb'). rewrite Ex in L. simpl in L. lia.
      * rewrite E. apply (concat_nth _ _ _ bs'); [exact Hb'|]. rewrite Ex. reflexivity.
      * rewrite G1, <- En. exact Ix.
    + apply in_map_iff in Hn. destruct Hn as (d' & En' & Hd'). assert (Ha : In d' (all_defs b)) by (apply in_all_defs; eauto).
      destruct (K d' Ha En') as [G|(G1 & G2)]; [left; split; [exact G|exact STD]|]. right. right.
      exists it, im. split; [exact Hit|]. split; [exact Him|]. split; [exact En|]. intros fuel' c' Hc'.
      destruct (generated_data _ _ _ _ Hc') as (sorted' & dss' & Hso' & E' & F').
      apply (Permutation_in _ (Permutation_sym (sorted_perm _ _ _ Hso'))) in Hd'.
      destruct (Forall2_in_l _ _ _ _ _ _ F' Hd') as (bs' & Hbs' & D'). destruct (declares_introduces _ _ _ _ _ D' G2) as (x & Ex & Ix).
      exists x. split; [|rewrite G1, <- En'; exact Ix]. rewrite E'. apply in_concat. exists bs'. split; [exact Hbs'|]. rewrite Ex. left. reflexivity.
Qed.
