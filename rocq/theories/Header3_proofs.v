(** * Proofs: what a header declares *)
From Coq Require Import List String ZArith Lia Bool Ascii Permutation.
Import ListNotations.
From Verif Require Import Base PyNum PyStr Ast Size Processor Bundle Sorter CCommon GenCfs GenC GenBinary GenCosmos Main.
From Verif Require Import Spec_Grammar Spec_Check Spec_Num Spec_Enum Spec_Size Spec_Bundle Spec_Gen Spec_Text Spec_Files Spec_C Spec_Header.
From Verif Require Import Str_proofs Text_proofs Lib_proofs Size_proofs Reject_proofs Enum_proofs Bundle_proofs Accept_proofs Gen_proofs Field_proofs Run_proofs Name_proofs Files_proofs
  Cdata_proofs Disk_proofs Cfs_proofs C_proofs Order_proofs Decl_proofs Packed_proofs Binary_proofs Header_proofs Header2_proofs.
Open Scope string_scope.

(** ** Types of simple definitions *)
Lemma posix_names_in : forall n, In n (map fst POSIX_NAMES) <-> In n POSIX_INTEGER_NAMES.
Proof. intros n. reflexivity. Qed.

Lemma posix_names_lower : forall n, In n POSIX_INTEGER_NAMES -> In (n, lowerize (c_name n)) POSIX_NAMES.
Proof. intros n H. simpl in H. repeat (destruct H as [<-|H]; [vm_compute; tauto|]). destruct H. Qed.

Lemma posix_types_lower : forall n ct, In (n, ct) POSIX_NAMES -> In n POSIX_INTEGER_NAMES /\ ct = lowerize (c_name n).
Proof.
  intros n ct H. simpl in H. repeat (destruct H as [H|H]; [injection H as <- <-; split; [simpl; tauto|reflexivity]|]). destruct H.
Qed.

Lemma next_bit_size_wide : forall w, (64 < w)%Z -> (64 < next_bit_size w)%Z.
Proof.
  intros w H. unfold next_bit_size. replace (w <=? 8)%Z with false by lia.
  assert (G := Z.log2_up_spec w ltac:(lia)). lia.
Qed.

Lemma wide_not_posix : forall n, (64 < n)%Z -> mem ("uint" ++ str_of_Z n ++ "_t") POSIX_DEFINED_TYPES = false.
Proof.
  intros n H. destruct (mem _ _) eqn:M; [|reflexivity]. exfalso. apply mem_In in M.
  assert (K : forall s z, str_of_Z n ++ "_t" = s ++ "_t" -> read_int s = Some z -> n = z).
  { intros s z E R. apply string_app_inv_r in E. rewrite <- E in R. rewrite read_str_of_Z in R. congruence. }
  simpl in M.
  repeat (destruct M as [M|M];
    [first [ discriminate M
           | injection M as M; symmetry in M;
             first [ apply (K "8" 8%Z) in M; [lia|reflexivity]
                   | apply (K "16" 16%Z) in M; [lia|reflexivity]
                   | apply (K "32" 32%Z) in M; [lia|reflexivity]
                   | apply (K "64" 64%Z) in M; [lia|reflexivity] ] ]|]).
  destruct M.
Qed.

Lemma map_direct_said : forall t cm, type_ok t = true -> ranges_ok t -> map_direct t = Ok cm ->
  number_said t (split_on " " (cm_ctype cm)) (cm_bits cm).
Proof.
  intros t cm T R H. unfold map_direct in H. destruct (get_c_type t) as [c|] eqn:G; [|discriminate].
  destruct (c_type_cases t c T R G) as [->|[->|[(b & e & -> & L & ->)|[(b & e & -> & -> & B1 & B2)|[(b & e & -> & -> & B)|(n & E)]]]]].
  - (* BOOLEAN *)
    assert (E : element t = TBoolean).
    { clear H R. destruct t as [r|r| | |k n|n t|n]; try discriminate G.
      - exfalso. destruct r as [[b e]|]; [|discriminate G]. unfold get_c_type in G.
        destruct (real_range_cases b e T) as [(D & E)|[(D & A & B & E)|[(D & F1 & F2 & N & E)|(D & N & E)]]]; rewrite E in G; discriminate.
      - exfalso. destruct r as [[b e]|]; [|discriminate G]. unfold get_c_type, asn1_type in G. cbn [type_begin type_end type_name bind] in G.
        destruct (num_lt _ _); [discriminate|]. cbn [negb assert bind] in G. change (posix_range "INTEGER") with (@None (num * num)) in G.
        cbv iota in G. rewrite String.eqb_refl in G. destruct (num_le (NInt 0) (NInt b)); discriminate.
      - reflexivity.
      - destruct k; discriminate G.
      - destruct (element t) as [r|r| | |k m|m u|m] eqn:E; simpl; try exact E; exfalso.
        + assert (X : type_name t = "REAL") by (clear - E; induction t; cbn in *; try discriminate; auto).
          unfold get_c_type, asn1_type in G. cbn [type_begin type_end type_name] in G. rewrite X in G. discriminate.
        + assert (X : type_name t = "INTEGER") by (clear - E; induction t; cbn in *; try discriminate; auto).
          unfold get_c_type, asn1_type in G. cbn [type_begin type_end type_name] in G. rewrite X in G. discriminate.
        + assert (X : type_name t = "NULL") by (clear - E; induction t; cbn in *; try discriminate; auto).
          unfold get_c_type, asn1_type in G. cbn [type_begin type_end type_name] in G. rewrite X in G. discriminate.
        + assert (X : type_name t = string_kind_name k) by (clear - E; induction t; cbn in *; try discriminate; auto; congruence).
          unfold get_c_type, asn1_type in G. cbn [type_begin type_end type_name] in G. rewrite X in G. destruct k; discriminate.
        + clear - E. induction t; cbn in *; try discriminate; auto.
        + assert (Hc : is_name_capital m = true).
          { cbn [type_ok] in T. clear G. revert T E. induction t; simpl; intros T E; try discriminate; auto. injection E as ->. exact T. }
          destruct (named_c_type (TArray n t) m E Hc) as [(s & _ & X)|[(_ & X)|[(_ & X)|(_ & _ & _ & X)]]]; rewrite X in G; try discriminate.
          destruct s; discriminate.
      - exfalso. destruct (named_c_type (TName n) n eq_refl T) as [(s & _ & X)|[(_ & X)|[(_ & X)|(_ & _ & _ & X)]]]; rewrite X in G; try discriminate.
        destruct s; discriminate. }
    injection H as <-. apply said_bool. exact E.
  - (* strings *)
    assert (E : exists k n, t = TString k n).
    { clear H R. destruct t as [r|r| | |k n|n t|n]; try discriminate G; try (do 2 eexists; reflexivity); exfalso.
      - destruct r as [[b e]|]; [|discriminate G]. unfold get_c_type in G.
        destruct (real_range_cases b e T) as [(D & E)|[(D & A & B & E)|[(D & F1 & F2 & N & E)|(D & N & E)]]]; rewrite E in G; discriminate.
      - destruct r as [[b e]|]; [|discriminate G]. unfold get_c_type, asn1_type in G. cbn [type_begin type_end type_name bind] in G.
        destruct (num_lt _ _); [discriminate|]. cbn [negb assert bind] in G. change (posix_range "INTEGER") with (@None (num * num)) in G.
        cbv iota in G. rewrite String.eqb_refl in G. destruct (num_le (NInt 0) (NInt b)); discriminate.
      - unfold get_c_type, asn1_type in G. cbn [type_begin type_end bind] in G.
        destruct (posix_range _); [repeat (destruct (_ : bool) in G; try discriminate)|].
        destruct (String.eqb _ "INTEGER"), (String.eqb _ "REAL"), (String.eqb _ "BOOLEAN"); discriminate.
      - unfold get_c_type, asn1_type in G. cbn [type_begin type_end bind] in G.
        destruct (posix_range _); [repeat (destruct (_ : bool) in G; try discriminate)|].
        destruct (String.eqb _ "INTEGER"), (String.eqb _ "REAL"), (String.eqb _ "BOOLEAN"); discriminate. }
    destruct E as (k & n & ->). cbn [type_end get_bit_size] in H.
    apply bind_ok in H. destruct H as (w & _ & H). apply bind_ok in H. destruct H as (u & _ & H). injection H as <-. apply said_string.
  - (* INTEGER *)
    destruct (Z.ltb_spec b 0) as [N|N].
    + cbn [C_INT] in H. apply bind_ok in H. destruct H as (w & _ & H). apply bind_ok in H. destruct H as (u & _ & H). injection H as <-.
      apply said_signed. exact N.
    + assert (W := bit_length_least e ltac:(lia)). set (w := bit_length e) in *. clearbody w.
      assert (w <> 0)%Z.
      { intros ->. destruct W as (_ & W & _). simpl in W.
        assert (e = 0)%Z by lia. subst e. assert (b = 0)%Z by lia. subst b. discriminate H. }
      assert (0 <= w)%Z by apply W. destruct (Z.le_gt_cases w 64) as [Hw|Hw].
      * destruct (map_direct_unsigned b e w ltac:(lia) W ltac:(lia)) as (n & ct & S & I & si & E).
        unfold map_direct in E. rewrite G in E. cbn [C_INT] in E, H. rewrite E in H. injection H as <-. cbn [cm_ctype cm_bits].
        assert (X : split_on " " ct = [ct]).
        { simpl in I. repeat (destruct I as [I|I]; [injection I as <- <-; reflexivity|]). destruct I. }
        rewrite X. eapply said_unsigned; try eassumption; [lia|]. simpl existsb.
        destruct (in_dec Z.eq_dec w [8; 16; 32; 64]%Z) as [J|J].
        -- simpl in J. destruct J as [<-|[<-|[<-|[<-|[]]]]]; reflexivity.
        -- replace (_ || _)%bool with false; [reflexivity|]. symmetry. apply not_true_iff_false. intros K. apply J. simpl. lia.
      * cbn [C_INT type_begin type_end get_bit_size bind] in H.
        assert (E : bit_length e = w) by (apply (least_width_unique e); [apply bit_length_least; lia|exact W]). rewrite E in H.
        rewrite (wide_not_posix _ (next_bit_size_wide w Hw)) in H.
        apply bind_ok in H. destruct H as (u & _ & H). injection H as <-. cbn [cm_ctype cm_bits].
        replace (_ || _)%bool with false by lia. apply said_wide; assumption.
  - apply bind_ok in H. destruct H as (w & _ & H). apply bind_ok in H. destruct H as (u & _ & H). injection H as <-.
    apply said_single; assumption.
  - apply bind_ok in H. destruct H as (w & _ & H). apply bind_ok in H. destruct H as (u & _ & H). injection H as <-.
    apply said_double; assumption.
  - assert (Hc : is_name_capital n = true).
    { clear - T E. revert T E. induction t; simpl; intros T E; try discriminate; auto. injection E as ->. exact T. }
    destruct (named_c_type t n E Hc) as [(s & _ & X)|[(-> & X)|[(-> & X)|(_ & _ & _ & X)]]]; rewrite X in G; try discriminate; injection G as <-.
    + exfalso. destruct (element_named t n E) as (E1 & E2 & _). rewrite E1, E2 in H. destruct s; discriminate.
    + apply bind_ok in H. destruct H as (w & _ & H). apply bind_ok in H. destruct H as (u & _ & H). injection H as <-.
      apply said_float_name. exact E.
    + apply bind_ok in H. destruct H as (w & _ & H). apply bind_ok in H. destruct H as (u & _ & H). injection H as <-.
      apply said_double_name. exact E.
Qed.

(** ** Members *)
Section Members.
Variables (names : list string) (input : list module) (b : bundle) (bm : bmodule) (fuel : nat) (sorted : list definition).
Hypothesis C : config names input b.
Hypothesis Hbm : In bm (b_modules b).
Hypothesis Hso : sorted_definitions fuel (bm_mod bm) = Ok sorted.

Lemma used_somewhere : forall d k n, In d sorted -> In k (members_of d) -> element (m_type k) = TName n ->
  exists d', In d' (all_defs b) /\ def_name d' = n.
Proof.
  intros d k n Hd Hk He. destruct (In_nth_error _ _ Hd) as (i & Hi).
  destruct (use_cases names input b bm fuel sorted i d k n C Hbm Hso Hi Hk He) as [(j & d' & _ & Hj & En)|(it & im & _ & Him & _ & _ & Hn)].
  - exists d'. split; [|exact En]. apply in_all_defs. exists bm. split; [exact Hbm|].
    apply (Permutation_in _ (sorted_perm _ _ _ Hso)). eapply nth_error_In. exact Hj.
  - apply in_map_iff in Hn. destruct Hn as (d' & En & Hd'). exists d'. split; [|exact En]. apply in_all_defs. eauto.
Qed.

Lemma type_said_bundle : forall t ct bits, type_said (all_defs b) t ct bits -> type_said (definitions input) t ct bits.
Proof.
  assert (A := config_accepted _ _ _ C). destruct (accepted_same _ _ A) as (_ & Hs & _).
  assert (K : forall d, In d (all_defs b) -> exists d0, In d0 (definitions input) /\ same_definition d0 d).
  { intros d Hd. destruct (Forall2_in_r _ _ _ _ _ _ Hs Hd) as (d0 & H1 & H2). eauto. }
  intros t ct bits H. destruct H as [E|k n E|ct bits E N|n t' c ct bits E I P N|n t' c ct E I P|n c l E I P|n c l E I P|n c l w E I P W|n c l m e E E' I P|n d ct bits E I D S P W].
  - apply of_boolean. exact E.
  - eapply of_string. exact E.
  - apply of_number; assumption.
  - apply (Accept_proofs.same_simple _ _ _ _ _ Hs) in I. eapply of_simple; eassumption.
  - apply (Accept_proofs.same_simple _ _ _ _ _ Hs) in I. eapply of_posix; eassumption.
  - destruct (K _ I) as (d0 & H0 & Hd0). destruct d0; simpl in Hd0; try discriminate; [|destruct Hd0 as (? & Hd0 & _); discriminate].
    injection Hd0 as <- <- <-. eapply of_sequence; eassumption.
  - destruct (K _ I) as (d0 & H0 & Hd0). destruct d0; simpl in Hd0; try discriminate; [|destruct Hd0 as (? & Hd0 & _); discriminate].
    injection Hd0 as <- <- <-. eapply of_choice; eassumption.
  - destruct (K _ I) as (d0 & H0 & Hd0). destruct d0; simpl in Hd0; try discriminate.
    destruct Hd0 as (l' & Hd0 & R). injection Hd0 as <- <- <-. assert (L := renumbered_length _ _ R).
    eapply of_enumerated; try eassumption. rewrite <- L. exact W.
  - destruct (K _ I) as (d0 & H0 & Hd0). destruct d0; simpl in Hd0; try discriminate.
    destruct Hd0 as (l' & Hd0 & R). injection Hd0 as <- <- <-.
    eapply of_enumerated_array; eassumption.
  - destruct (K _ I) as (d0 & H0 & Hd0). eapply of_posix_other; try eassumption.
    + rewrite <- (same_definition_name _ _ Hd0). exact D.
    + rewrite <- (C_proofs.same_simple _ _ Hd0). exact S.
    + destruct d0; simpl in Hd0; try (destruct Hd0 as (l' & -> & R)); try subst d; try exact W.
      cbn [width_said] in W |- *. rewrite (renumbered_length _ _ R) in W. exact W.
Qed.

Lemma lower_type : forall n, is_name_capital n = true -> split_on " " (c_name n) = [c_name n].
Proof. intros n H. apply split_word, capital_word, H. Qed.

Lemma posix_said : forall d k f n, In d (mod_defs (bm_mod bm)) -> In k (members_of d) ->
  field_for fuel (all_defs b) (simple_definition_list b bm) k f ->
  element (m_type k) = TName n -> is_name_capital n = true -> In n POSIX_INTEGER_NAMES ->
  cf_type f = lowerize (c_name n).
Proof.
  intros d k f n Hd Hk Hf He Hc Hp.
  destruct Hf as (sb & si & H). unfold convert_member in H.
  apply bind_ok in H. destruct H as (cm & Hm & H). rewrite (map_member_named b k fuel n (element_name _ _ He) Hc) in Hm.
  assert (T : cm_ctype cm = c_name n).
  { destruct (resolve _ _) as [| |[]|]; try (injection Hm as <-; reflexivity).
    apply bind_ok in Hm. destruct Hm as (? & _ & Hm). injection Hm as <-. reflexivity. }
  rewrite T in H. apply (posix_lower n Hc) in Hp. assert (Hp' := Hp). apply mem_In in Hp'. rewrite Hp' in H.
  assert (E : exists ch r, lowerize (c_name n) = String ch r /\ is_upper ch = false).
  { simpl in Hp. repeat (destruct Hp as [<-|Hp]; [do 2 eexists; split; reflexivity|]). destruct Hp. }
  destruct E as (ch & r & E & Hu). rewrite E in H. rewrite (sds_find_lower names input b bm ch r C Hbm Hu) in H.
  apply bind_ok in H. destruct H as ([[[bits ct] sb'] si'] & H1 & H2). injection H2 as <- _ _. simpl cf_type.
  injection H1 as <- <- _ _. rewrite <- E. reflexivity.
Qed.

Lemma posix_bits : forall d k f n x, In d (mod_defs (bm_mod bm)) -> In k (members_of d) ->
  field_for fuel (all_defs b) (simple_definition_list b bm) k f ->
  element (m_type k) = TName n -> In n POSIX_INTEGER_NAMES -> In x (all_defs b) -> def_name x = n -> is_simple x = false ->
  width_said x (m_type k) (cf_bits f).
Proof.
  intros d k f n x Hd Hk Hf He Hp Hx Ex Sx. assert (Hc := config_capital _ _ _ _ C Hx). rewrite Ex in Hc.
  assert (Hf' := Hf). destruct Hf as (sb & si & H). unfold convert_member in H.
  apply bind_ok in H. destruct H as (cm & Hm & H). rewrite (map_member_named b k fuel n (element_name _ _ He) Hc) in Hm.
  assert (T : cm_ctype cm = c_name n).
  { destruct (resolve _ _) as [| |[]|]; try (injection Hm as <-; reflexivity).
    apply bind_ok in Hm. destruct Hm as (? & _ & Hm). injection Hm as <-. reflexivity. }
  rewrite T in H. apply (posix_lower n Hc) in Hp. assert (Hp' := Hp). apply mem_In in Hp'. rewrite Hp' in H.
  assert (E : exists ch r, lowerize (c_name n) = String ch r /\ is_upper ch = false).
  { simpl in Hp. repeat (destruct Hp as [<-|Hp]; [do 2 eexists; split; reflexivity|]). destruct Hp. }
  destruct E as (ch & r & E & Hu). rewrite E in H. rewrite (sds_find_lower names input b bm ch r C Hbm Hu) in H.
  apply bind_ok in H. destruct H as ([[[bits ct] sb'] si'] & H1 & H2). injection H2 as <- _ _. simpl cf_bits.
  injection H1 as <- <- _ _.
  assert (L := lookup_here _ _ _ C _ Hx). rewrite Ex in L.
  destruct (m_type k) as [r0|r0| | |s l|l e|n'] eqn:Et; simpl in He; try discriminate.
  - simpl in Hm. injection Hm as <-. destruct x; reflexivity.
  - injection He as ->. cbn [resolve type_name] in Hm. rewrite L in Hm.
    destruct x as [| |n' c' l'|]; try (injection Hm as <-; reflexivity). cbn [def_name] in Ex. subst n'.
    destruct (parsed_enum _ _ _ C _ _ _ Hx) as (_ & _ & w & _ & W). exists w. split; [|exact W].
    rewrite <- (enum_bits _ _ _ C bm k fuel _ n c' l' w Hbm Hf' Et Hx W). reflexivity.
Qed.

Lemma direct_array : forall d k f n e, In d (mod_defs (bm_mod bm)) -> In k (members_of d) ->
  field_for fuel (all_defs b) (simple_definition_list b bm) k f -> m_type k = TArray n e ->
  match element e with TInteger _ | TReal _ => True | _ => False end -> False.
Proof.
  intros d k f n e Hd Hk (sb & si & Hf) Et He. unfold convert_member, map_member in Hf.
  assert (Ev : type_name (m_type k) = "INTEGER" \/ type_name (m_type k) = "REAL").
  { rewrite Et. simpl. clear - He. induction e; simpl in *; try contradiction; auto. }
  assert (M : mem (c_name (type_name (m_type k))) ["INTEGER"; "REAL"] = true) by (destruct Ev as [-> | ->]; reflexivity).
  rewrite M in Hf. apply bind_ok in Hf. destruct Hf as (cm' & Hcm & _). rewrite Et in Hcm. revert Hcm. apply map_direct_array. exact He.
Qed.

Lemma member_is_said : forall d k f, In d sorted -> In k (members_of d) ->
  field_for fuel (all_defs b) (simple_definition_list b bm) k f -> member_said (definitions input) k (field_said f).
Proof.
  intros d k f Hs Hk Hf.
  assert (Hd : In d (mod_defs (bm_mod bm))) by (apply (Permutation_in _ (sorted_perm _ _ _ Hso)); exact Hs).
  destruct (field_key b bm k fuel f Hf) as (K1 & _ & K2).
  destruct (field_member names input b bm d k C Hbm Hd Hk) as (_ & T & R & NN).
  split; [exact K1|]. split; [exact K2|]. apply type_said_bundle. cbn [field_said x_type x_bits].
  destruct (element (m_type k)) as [r|r| | |sk len|len e|n] eqn:He.
  - destruct (m_type k) as [r'|r'| | |sk' len'|len' e'|n'] eqn:Et; simpl in He; try discriminate.
    + destruct (field_direct names input b bm k fuel f C Hbm Hf) as (cm & Hcm & -> & ->); [rewrite Et; exact I|].
      rewrite Et in Hcm. apply of_number; [right; eauto|]. apply map_direct_said; assumption.
    + exfalso. eapply direct_array; try eassumption. rewrite He. exact I.
  - destruct (m_type k) as [r'|r'| | |sk' len'|len' e'|n'] eqn:Et; simpl in He; try discriminate.
    + destruct (field_direct names input b bm k fuel f C Hbm Hf) as (cm & Hcm & -> & ->); [rewrite Et; exact I|].
      rewrite Et in Hcm. apply of_number; [left; eauto|]. apply map_direct_said; assumption.
    + exfalso. eapply direct_array; try eassumption. rewrite He. exact I.
  - congruence.
  - destruct (field_boolean names input b bm k fuel f C Hbm Hf He) as (-> & ->). apply of_boolean. exact He.
  - destruct (field_string names input b bm k fuel f C Hbm Hf _ _ He) as (-> & ->). eapply of_string. exact He.
  - exfalso. clear - He. induction (m_type k); simpl in He; try discriminate. auto.
  - destruct (used_somewhere d k n Hs Hk He) as (x & Hx & Ex).
    assert (Hc := config_capital _ _ _ _ C Hx). rewrite Ex in Hc.
    destruct (in_dec string_dec n POSIX_INTEGER_NAMES) as [P|P].
    + assert (CT := posix_said d k f n Hd Hk Hf He Hc P). rewrite CT.
      rewrite split_word by (apply lowerize_word, capital_word; exact Hc).
      destruct (is_simple x) eqn:Sx.
      * destruct x as [| | |n' t' c']; try discriminate. simpl in Ex. subst n'.
        destruct (field_simple names input b bm d k fuel f C Hbm Hd Hk Hf n t' c' He Hx) as [F1 _].
        rewrite (proj2 (F1 P)). eapply of_posix; try eassumption. apply posix_names_lower. exact P.
      * eapply of_posix_other; try eassumption; [apply posix_names_lower; exact P|].
        exact (posix_bits d k f n x Hd Hk Hf He P Hx Ex Sx).
    + assert (P' : ~ In n (map fst POSIX_NAMES)) by (rewrite posix_names_in; exact P).
      destruct x as [n' c' l'|n' c' l'|n' c' l'|n' t' c']; simpl in Ex; subst n'.
      * destruct (field_named names input b bm k fuel f C Hbm Hf n _ He Hx eq_refl eq_refl P) as (-> & B).
        rewrite lower_type by exact Hc. replace (cf_bits f) with (@None Z) by (destruct (m_type k); symmetry; exact B). eapply of_sequence; eassumption.
      * destruct (field_named names input b bm k fuel f C Hbm Hf n _ He Hx eq_refl eq_refl P) as (-> & B).
        rewrite lower_type by exact Hc. replace (cf_bits f) with (@None Z) by (destruct (m_type k); symmetry; exact B). eapply of_choice; eassumption.
      * destruct (field_named names input b bm k fuel f C Hbm Hf n _ He Hx eq_refl eq_refl P) as (-> & B).
        rewrite lower_type by exact Hc. destruct (m_type k) as [r'|r'| | |sk' len'|len' e'|n'] eqn:Et; simpl in He; try discriminate.
        -- rewrite B. eapply of_enumerated_array; try eassumption. reflexivity.
        -- injection He as ->. destruct (parsed_enum _ _ _ C _ _ _ Hx) as (_ & _ & w & _ & W).
           rewrite (enum_bits _ _ _ C bm k fuel f n c' l' w Hbm Hf Et Hx W). eapply of_enumerated; try eassumption. reflexivity.
      * destruct (field_simple names input b bm d k fuel f C Hbm Hd Hk Hf n t' c' He Hx) as [_ F2].
        destruct (F2 P) as (cm & Hcm & -> & ->).
        destruct (accepted_simple _ _ _ _ _ (proj1 C) (config_accepted _ _ _ C) Hx) as (T' & R' & _ & _).
        eapply of_simple; try eassumption. apply map_direct_said; assumption.
Qed.

Lemma definition_is_said : forall d0 d xs, same_definition d0 d -> In d sorted ->
  declares fuel (all_defs b) (simple_definition_list b bm) d xs -> definition_said (definitions input) d0 (map said xs).
Proof.
  intros d0 d xs S Hd H. destruct H as [n t c|n c l fields F|n c l|n c l].
  - destruct d0; simpl in S; try discriminate; [destruct S as (? & S & _); discriminate|]. injection S as <- <- <-. apply simple_said.
  - destruct d0; simpl in S; try discriminate; [|destruct S as (? & S & _); discriminate]. injection S as <- <- <-. apply sequence_said.
    assert (G : forall k, In k l -> In k (members_of (DSequence n c l))) by auto. revert G. generalize (DSequence n c l) Hd. clear Hd.
    intros d Hd G. induction F as [|k f l fs H F IH]; simpl; constructor.
    + eapply member_is_said; [exact Hd|apply G; left; reflexivity|exact H].
    + apply IH. intros k' Hk'. apply G. right. exact Hk'.
  - destruct d0; simpl in S; try discriminate. destruct S as (l' & S & R). injection S as <- <- <-. simpl. rewrite map_map.
    apply (enumerated_said _ _ _ _ l). exact R.
  - destruct d0; simpl in S; try discriminate; [|destruct S as (? & S & _); discriminate]. injection S as <- <- <-. simpl. rewrite map_map.
    apply choice_said.
Qed.
End Members.

(** ** <stdint.h> is included exactly when it is needed *)
Lemma split_nonempty : forall ch s, split_on ch s <> [].
Proof.
  intros ch. induction s as [|c s IH]; simpl; [discriminate|]. destruct (Ascii.eqb c ch); [discriminate|].
  destruct (split_on ch s); [contradiction|discriminate].
Qed.

Lemma split_single : forall ch s t, split_on ch s = [t] -> s = t.
Proof.
  intros ch. induction s as [|c s IH]; intros t H; simpl in H; [injection H as <-; reflexivity|].
  destruct (Ascii.eqb c ch).
  - exfalso. injection H as _ H. apply (split_nonempty ch s H).
  - destruct (split_on ch s) as [|x l]; [discriminate|]. injection H as <- ->. rewrite (IH x eq_refl). reflexivity.
Qed.

Section Std.
Variables (names : list string) (input : list module) (b : bundle) (bm : bmodule).
Hypothesis C : config names input b.
Hypothesis Hbm : In bm (b_modules b).
Local Notation sds := (simple_definition_list b bm).

Lemma map_direct_std_inv : forall t cm, map_direct t = Ok cm -> cm_stdint cm = true -> In (cm_ctype cm) POSIX_DEFINED_TYPES.
Proof.
  intros t cm H S. unfold map_direct in H. destruct (get_c_type t) as [ct|]; [|discriminate].
  apply bind_ok in H. destruct H as (w & _ & H). apply bind_ok in H. destruct H as (u & _ & H).
  destruct ct; try (injection H as <-; discriminate S).
  destruct (mem ("uint" ++ str_of_Z (next_bit_size w) ++ "_t") POSIX_DEFINED_TYPES) eqn:E; injection H as <-; [|discriminate S].
  apply mem_In. exact E.
Qed.

Lemma field_std_inv : forall fuel defs k f sb, convert_member fuel defs sds k = Ok (f, sb, true) ->
  In (cf_type f) POSIX_DEFINED_TYPES.
Proof.
  intros fuel defs k f sb H. unfold convert_member in H.
  apply bind_ok in H. destruct H as (cm & Hm & H). apply bind_ok in H. destruct H as ([[[bits ct] sb'] si'] & H1 & H2).
  injection H2 as <- <- ->. cbn [cf_type].
  assert (L : cm_stdint cm = true -> In (cm_ctype cm) POSIX_DEFINED_TYPES).
  { intros S. unfold map_member in Hm. destruct (mem _ _); [eapply map_direct_std_inv; eassumption|].
    destruct (String.eqb _ _); [injection Hm as <-; simpl; tauto|].
    destruct (resolve _ _) as [| |[]|]; try (injection Hm as <-; discriminate S).
    apply bind_ok in Hm. destruct Hm as (s & _ & Hm). injection Hm as <-. discriminate S. }
  assert (P : cm_stdint cm || mem (lowerize (cm_ctype cm)) POSIX_DEFINED_TYPES = mem (lowerize (cm_ctype cm)) POSIX_DEFINED_TYPES).
  { destruct (cm_stdint cm); [|reflexivity]. specialize (L eq_refl). revert L. generalize (cm_ctype cm). intros s L.
    simpl in L. repeat (destruct L as [<-|L]; [reflexivity|]). destruct L. }
  rewrite P in H1. clear P L. destruct (mem (lowerize (cm_ctype cm)) POSIX_DEFINED_TYPES) eqn:M.
  - assert (M' := M). apply mem_In in M'.
    assert (E : exists ch r, lowerize (cm_ctype cm) = String ch r /\ is_upper ch = false).
    { simpl in M'. repeat (destruct M' as [<-|M']; [do 2 eexists; split; reflexivity|]). destruct M'. }
    destruct E as (ch & r & E & Hu). rewrite E in H1. rewrite (sds_find_lower names input b bm ch r C Hbm Hu) in H1.
    injection H1 as _ <- _. rewrite <- E. apply mem_In. exact M.
  - destruct (find _ _) as [[n t]|].
    + apply bind_ok in H1. destruct H1 as (cm' & Hd & H1). injection H1 as <- <- <- S. eapply map_direct_std_inv; eassumption.
    + injection H1 as _ _ _ S. discriminate.
Qed.

Lemma convert_members_std_inv : forall fuel defs wch name, (forall n k c, wch n k = Ok c -> cd_stdint c = false) ->
  forall l fields acc fields' acc', convert_members fuel defs sds wch name l fields acc = Ok (fields', acc') ->
  cd_stdint acc' = true -> cd_stdint acc = true \/ exists k f, In k l /\ field_for fuel defs sds k f /\ In (cf_type f) POSIX_DEFINED_TYPES.
Proof.
  intros fuel defs wch name Hw. induction l as [|k l IH]; intros fields acc fields' acc' H S; simpl in H.
  - injection H as <- <-. auto.
  - apply bind_ok in H. destruct H as ([[f sb] si] & Hc & H). apply bind_ok in H. destruct H as (acc1 & Ha & H).
    destruct (IH _ _ _ _ H S) as [S1|(k' & f' & Hk & Hf & P)]; [|right; exists k', f'; split; [right; exact Hk|auto]].
    assert (X : cd_stdint acc || si = true).
    { destruct (m_with k).
      - apply bind_ok in Ha. destruct Ha as (c & Hx & Ha). injection Ha as <-. simpl in S1. rewrite (Hw _ _ _ Hx), orb_false_r in S1. exact S1.
      - injection Ha as <-. exact S1. }
    apply orb_prop in X. destruct X as [X| ->]; [left; exact X|]. right. exists k, f.
    split; [left; reflexivity|]. split; [exists sb, true; exact Hc|]. eapply field_std_inv; exact Hc.
Qed.

Lemma type_name_not_posix : forall t, type_ok t = true -> mem (type_name t) POSIX_DEFINED_TYPES = false.
Proof.
  induction t as [r|r| | |k n|n t IH|n]; simpl type_name; intros T; try reflexivity; [destruct k; reflexivity|apply IH; exact T|].
  destruct (mem n POSIX_DEFINED_TYPES) eqn:M; [|reflexivity]. apply mem_In in M. simpl in M, T.
  repeat (destruct M as [<-|M]; [discriminate T|]). destruct M.
Qed.

Lemma choice_std : forall n c l, In (DChoice n c l) (mod_defs (bm_mod bm)) -> cd_stdint (convert_choice n c l) = false.
Proof.
  intros n c l H. unfold convert_choice. cbn [set_std cd_stdint add_data empty_cdata]. destruct (existsb _ l) eqn:E; [|reflexivity]. exfalso. apply existsb_exists in E.
  destruct E as (k & Hk & E).
  destruct (field_member names input b bm _ k C Hbm H Hk) as (_ & T & _ & _). rewrite (type_name_not_posix _ T) in E. discriminate.
Qed.

Lemma module_std : forall fuel inc note wch c, (forall n k c, wch n k = Ok c -> cd_stdint c = false) ->
  module_cdata fuel b bm inc note wch = Ok c -> cd_stdint c = true ->
  exists n cm l k f, In (DSequence n cm l) (mod_defs (bm_mod bm)) /\ In k l /\ field_for fuel (all_defs b) sds k f
    /\ In (cf_type f) POSIX_DEFINED_TYPES.
Proof.
  intros fuel inc note wch c Hw H S. unfold module_cdata in H. apply bind_ok in H. destruct H as (sorted & Hs & H).
  apply bind_ok in H. destruct H as (c1 & Hc & H).
  assert (G : forall l acc acc', (forall d, In d l -> In d (mod_defs (bm_mod bm))) ->
    convert_definitions fuel (all_defs b) sds note wch l acc = Ok acc' -> cd_stdint acc' = true ->
    cd_stdint acc = true \/ exists n cm ms k f, In (DSequence n cm ms) l /\ In k ms /\ field_for fuel (all_defs b) sds k f
    /\ In (cf_type f) POSIX_DEFINED_TYPES).
  { clear - Hw C Hbm. induction l as [|d l IH]; intros acc acc' Hl H S; simpl in H; [injection H as <-; auto|].
    apply bind_ok in H. destruct H as (a & Ha & H).
    destruct (IH _ _ (fun d Hd => Hl d (or_intror Hd)) H S) as [S1|(n & cm & ms & k & f & Hin & R)]; [|right; exists n, cm, ms, k, f; split; [right; exact Hin|exact R]].
    destruct d as [n c ms|n c ms|n c ms|n t c]; simpl in Ha.
    - apply bind_ok in Ha. destruct Ha as (x & Hx & Ha). injection Ha as <-. simpl in S1. apply orb_prop in S1.
      destruct S1 as [S1|S1]; [left; exact S1|]. unfold convert_sequence in Hx.
      apply bind_ok in Hx. destruct Hx as ([fields a] & Hc & Hx). apply bind_ok in Hx. destruct Hx as (u & _ & Hx). injection Hx as <-.
      simpl in S1. destruct (convert_members_std_inv _ _ _ _ Hw _ _ _ _ _ Hc S1) as [X|(k & f & Hk & Hf & P)]; [discriminate X|].
      right. exists n, c, ms, k, f. split; [left; reflexivity|]. auto.
    - injection Ha as <-. cbn [extend_with_cdata cd_stdint] in S1. rewrite (choice_std _ _ _ (Hl _ (or_introl eq_refl))), orb_false_r in S1. auto.
    - injection Ha as <-. assert (S2 : cd_stdint acc || false = true) by exact S1. rewrite orb_false_r in S2. auto.
    - apply bind_ok in Ha. destruct Ha as (s & _ & Ha). injection Ha as <-. left. destruct s; exact S1. }
  assert (S1 : cd_stdint c1 = true).
  { injection H as <-. destruct (mod_comment (bm_mod bm)) as [x|]; [|exact S]. destruct (String.eqb (cm_text x) ""); exact S. }
  destruct (G _ _ _ (fun d => Permutation_in d (sorted_perm _ _ _ Hs)) Hc S1) as [X|(n & cm & ms & k & f & Hin & R)]; [discriminate X|].
  exists n, cm, ms, k, f. split; [|exact R]. apply (Permutation_in _ (sorted_perm _ _ _ Hs)). exact Hin.
Qed.

Lemma generated_std_inv : forall fuel c, generated fuel b bm c -> cd_stdint c = true ->
  exists n cm l k f, In (DSequence n cm l) (mod_defs (bm_mod bm)) /\ In k l /\ field_for fuel (all_defs b) sds k f
    /\ In (cf_type f) POSIX_DEFINED_TYPES.
Proof.
  intros fuel c [H|[H|(e & H)]]; (eapply module_std; [|exact H]).
  - intros n k x G. unfold cfs_with_components in G. destruct (m_with k); [|injection G as <-; reflexivity].
    apply bind_ok in G. destruct G as (ds & _ & G). injection G as <-. reflexivity.
  - intros n k x G. unfold c_with_components in G. destruct (m_with k); injection G as <-; reflexivity.
  - intros n k x G. unfold bin_with_components in G. destruct (m_with k); [|injection G as <-; reflexivity].
    apply bind_ok in G. destruct G as (? & _ & G). apply bind_ok in G. destruct G as (? & _ & G). injection G as <-. reflexivity.
Qed.

Lemma std_used : forall fuel c, generated fuel b bm c ->
  (cd_stdint c = true <-> exists x, In x (map said (cd_data c)) /\ uses_stdint x).
Proof.
  intros fuel c H. destruct (generated_data _ _ _ _ H) as (sorted & dss & Hso & E & F). assert (P := sorted_perm _ _ _ Hso).
  split.
  - intros S. destruct (generated_std_inv _ _ H S) as (n & cm & l & k & f & Hd & Hk & Hf & Ht).
    apply (Permutation_in _ (Permutation_sym P)) in Hd. destruct (Forall2_in_l _ _ _ _ _ _ F Hd) as (xs & Hxs & D).
    inversion D as [|n0 c0 l0 fields FF| |]; subst. exists (XStruct true (c_name n) (map field_said fields)). split.
    + apply in_map_iff. exists (CStruct (def_comment_text cm) (c_name n) fields). split; [reflexivity|]. rewrite E.
      apply in_concat. eexists. split; [exact Hxs|]. left. reflexivity.
    + destruct (Forall2_in_l _ _ _ _ _ _ FF Hk) as (f' & Hf' & Hff).
      destruct Hf as (sb & si & Hf), Hff as (sb' & si' & Hff). rewrite Hf in Hff. injection Hff as <- _ _.
      exists true, (c_name n), (map field_said fields), (field_said f), (cf_type f). split; [reflexivity|].
      split; [apply in_map; exact Hf'|]. split; [|exact Ht]. cbn [field_said x_type].
      apply split_word, posix_word, Ht.
  - intros (x & Hx & packed & n & fs & f & t & -> & Hf & Et & Ht).
    apply in_map_iff in Hx. destruct Hx as (d & Ed & Hd). rewrite E in Hd. apply in_concat in Hd. destruct Hd as (xs & Hxs & Hd).
    destruct (Forall2_in_r _ _ _ _ _ _ F Hxs) as (d' & Hd' & D). apply (Permutation_in _ P) in Hd'.
    inversion D; subst; simpl in Hd; try contradiction; destruct Hd as [<-|[]]; simpl in Ed; try discriminate.
    injection Ed as <- <- <-. apply in_map_iff in Hf. destruct Hf as (f0 & <- & Hf).
    destruct (Forall2_in_r _ _ _ _ _ _ H0 Hf) as (k & Hk & Hff). cbn [field_said x_type] in Et.
    assert (X : cf_type f0 = t).
    { apply (split_single " "). exact Et. }
    eapply generated_std; try eassumption. rewrite X. exact Ht.
Qed.
End Std.

(** ** The header *)
Lemma header_declares : forall names cmd fuel input fs fs' m, config_command names cmd ->
  Forall (fun m => grammatical m = true) input -> run fuel cmd input fs = (fs', Ok tt) -> In m input -> quiet m ->
  exists text h order dss std,
    folder_get fs' (header_name cmd (mod_name m)) = Some text /\ read_header text = Some h
    /\ h_guard h = header_guard cmd (mod_name m)
    /\ h_includes h = (std ++ map (fun it => Local (included_file cmd (imp_module it))) (mod_imports m))%list
    /\ ((std = [System "stdint"] /\ exists x, In x (h_decls h) /\ uses_stdint x)
        \/ (std = [] /\ ~ exists x, In x (h_decls h) /\ uses_stdint x))
    /\ h_decls h = (concat dss ++ variables_said cmd order)%list
    /\ Permutation order (mod_defs m)
    /\ (forall i d k n, nth_error order i = Some d -> In k (members_of d) -> element (m_type k) = TName n ->
         (exists j d', (j < i)%nat /\ nth_error order j = Some d' /\ def_name d' = n)
         \/ exists it, In it (mod_imports m) /\ In n (imp_names it))
    /\ Forall2 (definition_said (definitions input)) order dss.
Proof.
  intros names cmd fuel input fs fs' m HC Hg H Hm Q.
  destruct (header_of_run names cmd fuel input fs fs' m HC Hg H Hm Q) as (b & bm & c & sorted & text & C & Hbm & S & G & Hso & Hf & Hr).
  destruct (generated_data _ _ _ _ G) as (sorted' & dss & Hso' & E & F). rewrite Hso in Hso'. injection Hso' as <-.
  assert (P := sorted_perm _ _ _ Hso).
  destruct (order_of_input m (bm_mod bm) sorted S P) as (order & Po & Fo).
  exists text. eexists. exists order, (map (map said) dss). eexists. split; [exact Hf|]. split; [exact Hr|]. cbn [h_guard h_includes h_decls].
  split; [reflexivity|]. split; [reflexivity|].
  assert (V : map (fun x => XVar (fst x) (snd x)) (clause_vars cmd sorted) = variables_said cmd order).
  { assert (X : flat_map def_clauses sorted = flat_map def_clauses order).
    { clear - Fo. induction Fo as [|d d' l l' Hd Fo IH]; simpl; [reflexivity|]. rewrite (same_clauses _ _ Hd), IH. reflexivity. }
    unfold clause_vars, variables_said. destruct cmd; try reflexivity. rewrite map_map, X. reflexivity. }
  rewrite V. split; [|split; [|split; [|split]]].
  - assert (U : cd_stdint c = true <-> exists x, In x (map said (cd_data c) ++ variables_said cmd order) /\ uses_stdint x).
    { rewrite (std_used names input b bm C Hbm fuel c G). split; intros (x & Hx & U).
      - exists x. split; [apply in_or_app; left; exact Hx|exact U].
      - apply in_app_or in Hx. destruct Hx as [Hx|Hx]; [exists x; auto|]. exfalso. clear - Hx U.
        unfold variables_said in Hx. destruct cmd; try contradiction. apply in_map_iff in Hx. destruct Hx as (y & <- & _).
        destruct U as (? & ? & ? & ? & ? & U & _). discriminate. }
    destruct (cd_stdint c).
    + left. split; [reflexivity|]. apply U. reflexivity.
    + right. split; [reflexivity|]. intros X. apply U in X. discriminate.
  - rewrite E, concat_map. reflexivity.
  - exact Po.
  - intros i d k n Hi Hk He.
    assert (L : forall i d, nth_error order i = Some d -> exists d', nth_error sorted i = Some d' /\ same_definition d d').
    { clear - Fo. induction Fo as [|a a' l l' Hd Fo IH]; intros i d Hi; destruct i; simpl in *; try discriminate.
      - injection Hi as <-. eauto.
      - apply IH. exact Hi. }
    assert (L' : forall i d, nth_error sorted i = Some d -> exists d', nth_error order i = Some d' /\ same_definition d' d).
    { clear - Fo. induction Fo as [|a a' l l' Hd Fo IH]; intros i d Hi; destruct i; simpl in *; try discriminate.
      - injection Hi as <-. eauto.
      - apply IH. exact Hi. }
    destruct (L _ _ Hi) as (d1 & Hi1 & S1). rewrite <- (same_definition_members _ _ S1) in Hk.
    destruct (use_cases names input b bm fuel sorted i d1 k n C Hbm Hso Hi1 Hk He) as [(j & d' & Lj & Hj & En)|(it & im & Hit & _ & _ & Hn & _)].
    + left. destruct (L' _ _ Hj) as (d2 & Hj2 & S2). exists j, d2. split; [exact Lj|]. split; [exact Hj2|].
      rewrite <- (same_definition_name _ _ S2). exact En.
    + right. exists it. split; [|exact Hn]. destruct S as (_ & _ & SI & _). rewrite <- SI. exact Hit.
  - assert (K : forall l0 l1 xs, Forall2 same_definition l0 l1 -> (forall d, In d l1 -> In d sorted) ->
      Forall2 (declares fuel (all_defs b) (simple_definition_list b bm)) l1 xs ->
      Forall2 (definition_said (definitions input)) l0 (map (map said) xs)).
    { clear - C Hbm Hso. intros l0 l1 xs Fs. revert xs. induction Fs as [|d0 d l l' S Fo IH]; intros xs Hin F; inversion F; subst; simpl; constructor.
      - eapply definition_is_said; try eassumption. apply Hin. left. reflexivity.
      - apply IH; [|assumption]. intros x Hx. apply Hin. right. exact Hx. }
    apply (K order sorted dss); auto.
Qed.

(** ** The definitions determine the declarations *)
Lemma number_said_unique : forall t c1 b1 c2 b2, number_said t c1 b1 -> number_said t c2 b2 -> c1 = c2 /\ b1 = b2.
Proof.
  intros t c1 b1 c2 b2 H1 H2.
  destruct H1 as [lo hi w n ct bits L W R S U B|lo hi w L W R|lo hi L|x y B1 B2|x y B|t E|k n|t E|t E];
  inversion H2 as [lo' hi' w' n' ct' bits' L' W' R' S' U' B'|lo' hi' w' L' W' R'|lo' hi' L'|x' y' B1' B2'|x' y' B'|t' E'|k' n'|t' E'|t' E']; subst;
  try (split; reflexivity); try (exfalso; lia); try discriminate; try (exfalso; tauto); try (exfalso; cbn [element] in *; congruence).
  - assert (w' = w) by (eapply least_width_unique; eassumption). subst w'.
    assert (n' = n) by (apply Z.le_antisymm; [apply S'|apply S]; try apply S; apply S'). subst n'.
    split; [|reflexivity]. f_equal. simpl in U, U'.
    repeat (destruct U as [U|U]; [injection U as <- <-; repeat (destruct U' as [U'|U']; [try discriminate; injection U' as <-; reflexivity|]); destruct U'|]). destruct U.
  - assert (w' = w) by (eapply least_width_unique; eassumption). exfalso. lia.
  - assert (w' = w) by (eapply least_width_unique; eassumption). exfalso. lia.
  - assert (w' = w) by (eapply least_width_unique; eassumption). subst w'. split; reflexivity.
Qed.

Lemma type_said_unique : forall ds t, NoDup (map def_name ds) ->
  forall c1 b1 c2 b2, type_said ds t c1 b1 -> type_said ds t c2 b2 -> c1 = c2 /\ b1 = b2.
Proof.
  intros ds t ND c1 b1 c2 b2 H1 H2.
  assert (U : forall d d', In d ds -> In d' ds -> def_name d = def_name d' -> d = d').
  { clear - ND. induction ds as [|a l IH]; simpl; intros d d' H H' E; [contradiction|]. inversion ND; subst.
    destruct H as [->|H], H' as [->|H']; try reflexivity.
    - exfalso. apply H2. rewrite E. apply in_map. exact H'.
    - exfalso. apply H2. rewrite <- E. apply in_map. exact H.
    - apply IH; auto. }
  assert (DONE : forall n d ct bits, element t = TName n -> In d ds -> def_name d = n -> type_said ds t ct bits ->
    match d with
    | DSimple _ t' _ => (~ In n (map fst POSIX_NAMES) /\ number_said t' ct bits) \/ (exists c, In (n, c) POSIX_NAMES /\ ct = [c] /\ bits = None)
    | d => ((~ In n (map fst POSIX_NAMES) /\ ct = [c_name n]) \/ (exists c, In (n, c) POSIX_NAMES /\ ct = [c])) /\ width_said d t bits
    end).
  { clear H1 H2. intros n d ct bits He Hd En H.
    destruct H as [E|k n' E|ct bits E N|n' t' c ct bits E I P N|n' t' c ct E I P|n' c l E I P|n' c l E I P|n' c l w E I P W|n' c l m e E E' I P|n' d' ct bits E I D S P W];
      try (rewrite He in E; discriminate E); try (rewrite He in E; injection E as <-).
    - exfalso. destruct E as [(r & ->)|(r & ->)]; discriminate He.
    - assert (X := U _ _ Hd I En). subst d. left. auto.
    - assert (X := U _ _ Hd I En). subst d. right. eauto.
    - assert (X := U _ _ Hd I En). subst d. split; [auto|reflexivity].
    - assert (X := U _ _ Hd I En). subst d. split; [auto|reflexivity].
    - subst t. injection He as ->. assert (X := U _ _ Hd I En). subst d. split; [auto|]. exists w. auto.
    - subst t. simpl in He. rewrite He in E'. injection E' as <-. assert (X := U _ _ Hd I En). subst d. split; [auto|reflexivity].
    - assert (X := U _ _ Hd I (eq_trans En (eq_sym D))). subst d'. destruct d; try discriminate S; (split; [right; eauto|exact W]). }
  assert (POS : forall n ct ct', In (n, ct) POSIX_NAMES -> In (n, ct') POSIX_NAMES -> ct = ct').
  { intros n ct ct' A B. apply posix_types_lower in A, B. destruct A as (_ & ->), B as (_ & ->). reflexivity. }
  assert (CT : forall n, (~ In n (map fst POSIX_NAMES) /\ c1 = [c_name n]) \/ (exists c, In (n, c) POSIX_NAMES /\ c1 = [c]) ->
    (~ In n (map fst POSIX_NAMES) /\ c2 = [c_name n]) \/ (exists c, In (n, c) POSIX_NAMES /\ c2 = [c]) -> c1 = c2).
  { intros n [(PA & ->)|(ca & PA & ->)] [(PB & ->)|(cb & PB & ->)]; [reflexivity| | |f_equal; eapply POS; eassumption].
    - exfalso. apply PA. apply in_map_iff. exists (n, cb). auto.
    - exfalso. apply PB. apply in_map_iff. exists (n, ca). auto. }
  assert (WID : forall d, width_said d t b1 -> width_said d t b2 -> b1 = b2).
  { intros d A B. unfold width_said in A, B. destruct d, t; try congruence.
    destruct A as (w & -> & W), B as (w' & -> & W'). f_equal. eapply least_width_unique; eassumption. }
  assert (FIN : forall n d, element t = TName n -> In d ds -> def_name d = n -> c1 = c2 /\ b1 = b2).
  { intros n d He Hd En. assert (A := DONE _ _ _ _ He Hd En H1). assert (B := DONE _ _ _ _ He Hd En H2).
    destruct d as [? ? ?|? ? ?|? ? l|? t' ?].
    - destruct A as (A & WA), B as (B & WB). split; [exact (CT n A B)|exact (WID _ WA WB)].
    - destruct A as (A & WA), B as (B & WB). split; [exact (CT n A B)|exact (WID _ WA WB)].
    - destruct A as (A & WA), B as (B & WB). split; [exact (CT n A B)|exact (WID _ WA WB)].
    - destruct A as [(PA & A)|(ca & PA & -> & ->)], B as [(PB & B)|(cb & PB & -> & ->)].
      + eapply number_said_unique; eassumption.
      + exfalso. apply PA. apply in_map_iff. exists (n, cb). auto.
      + exfalso. apply PB. apply in_map_iff. exists (n, ca). auto.
      + split; [|reflexivity]. f_equal. eapply POS; eassumption. }
  destruct H1 as [E|k n E|ct bits E N|n t' c ct bits E I P N|n t' c ct E I P|n c l E I P|n c l E I P|n c l w E I P W|n c l m e E E' I P|n d ct bits E I D S P];
    try (eapply FIN; [exact E|exact I|reflexivity]).
  - destruct H2 as [E2|k2 n2 E2|ct2 bits2 E2 N2|n2 t2 c2 ct2 bits2 E2 I2 P2 N2|n2 t2 c2 ct2 E2 I2 P2|n2 c2 l2 E2 I2 P2|n2 c2 l2 E2 I2 P2|n2 c2 l2 w2 E2 I2 P2 W2|n2 c2 l2 m2 e2 E2 E2' I2 P2|n2 d2 ct2 bits2 E2 I2 D2 S2 P2];
      try (rewrite E in E2; discriminate E2); try (split; reflexivity).
    + exfalso. destruct E2 as [(r & ->)|(r & ->)]; discriminate E.
    + exfalso. subst t. discriminate E.
    + exfalso. subst t. simpl in E. rewrite E in E2'. discriminate.
  - destruct H2 as [E2|k2 n2 E2|ct2 bits2 E2 N2|n2 t2 c2 ct2 bits2 E2 I2 P2 N2|n2 t2 c2 ct2 E2 I2 P2|n2 c2 l2 E2 I2 P2|n2 c2 l2 E2 I2 P2|n2 c2 l2 w2 E2 I2 P2 W2|n2 c2 l2 m2 e2 E2 E2' I2 P2|n2 d2 ct2 bits2 E2 I2 D2 S2 P2];
      try (rewrite E in E2; discriminate E2); try (split; reflexivity).
    + exfalso. destruct E2 as [(r & ->)|(r & ->)]; discriminate E.
    + exfalso. subst t. discriminate E.
    + exfalso. subst t. simpl in E. rewrite E in E2'. discriminate.
  - destruct H2 as [E2|k2 n2 E2|ct2 bits2 E2 N2|n2 t2 c2 ct2 bits2 E2 I2 P2 N2|n2 t2 c2 ct2 E2 I2 P2|n2 c2 l2 E2 I2 P2|n2 c2 l2 E2 I2 P2|n2 c2 l2 w2 E2 I2 P2 W2|n2 c2 l2 m2 e2 E2 E2' I2 P2|n2 d2 ct2 bits2 E2 I2 D2 S2 P2];
      try (exfalso; destruct E as [(r & ->)|(r & ->)]; discriminate E2).
    eapply number_said_unique; eassumption.
  - eapply FIN; [subst t; reflexivity|exact I|reflexivity].
  - eapply FIN; [subst t; exact E'|exact I|reflexivity].
  - eapply FIN; [exact E|exact I|exact D].
Qed.

(** So two headers that fit the same definitions in the same order agree. *)
Lemma definition_said_unique : forall ds d x y, NoDup (map def_name ds) ->
  definition_said ds d x -> definition_said ds d y -> x = y.
Proof.
  intros ds d x y ND H1 H2. destruct H1 as [n c l fs F|n c l l' R|n c l|n t c]; inversion H2 as [? ? ? fs' F'|? ? ? l'' R'| |]; subst; try reflexivity.
  - do 2 f_equal. clear H2. revert fs' F'. induction F as [|k f l fs K F IH]; intros fs' F'; inversion F' as [|? f' ? fs'' K' F'']; subst; [reflexivity|].
    f_equal; [|apply IH; assumption]. destruct K as (K1 & K2 & K3), K' as (K1' & K2' & K3').
    destruct (type_said_unique ds _ ND _ _ _ _ K3 K3') as (A & B). destruct f, f'; simpl in *. congruence.
  - rewrite (renumbered_unique _ _ _ R R'). reflexivity.
Qed.

(** ** Comments without these characters do no harm *)
Lemma no_slash_quiet : forall s, all_chars (fun c => negb (Ascii.eqb c "/")) s = true -> no_end_mark s.
Proof.
  intros s H a b E. subst s. rewrite !all_chars_app in H. apply andb_prop in H. destruct H as [_ H].
  apply andb_prop in H. destruct H as [H _]. discriminate H.
Qed.
Lemma no_backslash_quiet : forall s, all_chars (fun c => negb (Ascii.eqb c "\")) s = true -> no_last_backslash s.
Proof.
  intros s H a n E. subst s. rewrite !all_chars_app in H. apply andb_prop in H. destruct H as [_ H].
  apply andb_prop in H. destruct H as [H _]. discriminate H.
Qed.
