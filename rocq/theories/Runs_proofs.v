(** * When the cfs, c and binary commands succeed *)
From Coq Require Import Relations ZifyBool ZifyNat ZifyN Lia.
From Verif Require Import Base PyNum PyStr Ast Size Processor Bundle Sorter CCommon GenCfs GenC GenBinary Main
  Lib_proofs Spec_Enum Enum_proofs Spec_Num Num_proofs Spec_Check Check_proofs Spec_Grammar Spec_Bundle Bundle_proofs Reject_proofs Name_proofs Accept_proofs
  Spec_Size Size_proofs Spec_Gen Gen_proofs Field_proofs Spec_Order Order_proofs Cdata_proofs Run_proofs Note_proofs
  Spec_Layout Layout_proofs Spec_Cfs Cfs_proofs Spec_Binary Binary_proofs Packed_proofs Spec_Runs.
Open Scope string_scope.

(** ** Types written out *)

Lemma map_direct_ok : forall t, (exists cm, map_direct t = Ok cm) <-> exists w, base_size t = Ok w /\ (0 < w)%Z.
Proof.
  intros t. unfold map_direct, base_size. destruct (get_c_type t) as [c|]; [|split; intros (? & H); [discriminate|destruct H; discriminate]].
  destruct (get_bit_size c (type_begin t) (type_end t)) as [w| |]; cbn [bind].
  2,3: split; intros (? & H); [discriminate|destruct H; discriminate].
  split.
  - intros (cm & H). exists w. split; [reflexivity|]. apply bind_ok in H. destruct H as (u & H & _). apply assert_ok' in H. lia.
  - intros (w' & H & L). injection H as <-. replace (negb (w <=? 0)%Z) with true by lia. cbn [assert bind].
    destruct c; try (eexists; reflexivity). destruct (mem _ _); eexists; reflexivity.
Qed.

Lemma direct_array_base : forall n e, type_ok (TArray n e) = true ->
  (exists w, base_size (TArray n e) = Ok w /\ (0 < w)%Z)
  <-> element e = TBoolean \/ element e = TName "Float" \/ element e = TName "Double".
Proof.
  intros n e T. unfold base_size. cbn [type_begin type_end].
  assert (X : forall m, element e = TName m -> is_name_capital m = true).
  { intros m E. cbn [type_ok] in T. clear - T E. revert T E. induction e; simpl; intros T E; try discriminate; auto. injection E as ->. exact T. }
  destruct (element e) as [r|r| | |k m|m u|m] eqn:E.
  - assert (Y : type_name e = "REAL") by (clear - E; induction e; cbn in *; try discriminate; auto).
    unfold get_c_type, asn1_type. cbn [type_begin type_end type_name]. rewrite Y. cbn. split; [intros (? & H & _); discriminate|intuition discriminate].
  - assert (Y : type_name e = "INTEGER") by (clear - E; induction e; cbn in *; try discriminate; auto).
    unfold get_c_type, asn1_type. cbn [type_begin type_end type_name]. rewrite Y. cbn. split; [intros (? & H & _); discriminate|intuition discriminate].
  - assert (Y : type_name e = "NULL") by (clear - E; induction e; cbn in *; try discriminate; auto).
    unfold get_c_type, asn1_type. cbn [type_begin type_end type_name]. rewrite Y. cbn. split; [intros (? & H & _); discriminate|intuition discriminate].
  - assert (Y : type_name e = "BOOLEAN") by (clear - E; induction e; cbn in *; try discriminate; auto).
    unfold get_c_type, asn1_type. cbn [type_begin type_end type_name]. rewrite Y. cbn. split; [auto|]. intros _. exists 1%Z. split; [reflexivity|lia].
  - assert (Y : type_name e = string_kind_name k) by (clear - E; induction e; cbn in *; try discriminate; auto; congruence).
    unfold get_c_type, asn1_type. cbn [type_begin type_end type_name]. rewrite Y. destruct k; cbn; (split; [intros (? & H & _); discriminate|intuition discriminate]).
  - exfalso. clear - E. induction e; cbn in *; try discriminate; auto.
  - destruct (named_c_type (TArray n e) m E (X m eq_refl)) as [(s & Hs & G)|[(-> & G)|[(-> & G)|(N1 & N2 & N3 & G)]]]; rewrite G; cbn [get_bit_size].
    + split.
      * intros (w & H & _). destruct s; discriminate.
      * intros [H|[H|H]]; try discriminate; injection H as ->; simpl in Hs; intuition discriminate.
    + split; [auto|]. intros _. exists 32%Z. split; [reflexivity|lia].
    + split; [auto|]. intros _. exists 64%Z. split; [reflexivity|lia].
    + split; [intros (? & H & _); discriminate|]. intros [H|[H|H]]; congruence.
Qed.

Lemma direct_iff : forall t, type_ok t = true -> ranges_ok t -> element t <> TNull ->
  (exists cm, map_direct t = Ok cm) <-> direct_c_type t.
Proof.
  intros t T R N. rewrite map_direct_ok.
  assert (V := fun w => value_size_base t w T R N).
  destruct t as [r|r| | |k n|n t|n]; cbn [simple_size] in V.
  - setoid_rewrite <- V. split.
    + intros (w & H & _). inversion H; apply direct_real.
    + intros H. assert (Y := T). inversion H; subst; try discriminate.
      destruct (real_range_cases b e T) as [(D & _)|[(D & A & B & E)|[(D & F1 & F2 & X & E)|(D & X & E)]]].
      * exfalso. apply D. apply Forall_inv in R. apply R.
      * exists 32%Z. split; [constructor; assumption|lia].
      * exists 64%Z. split; [constructor; assumption|lia].
      * exfalso. apply X. apply Forall_inv in R. simpl in R. tauto.
  - split.
    + intros (w & H & W). apply V in H. inversion H; subst.
      * apply direct_integer. left. split; [assumption|]. destruct (Z.eq_dec e 0) as [->|X].
        -- exfalso. match goal with L : least_width w 0 |- _ => destruct L as (LA & LB & LC) end. specialize (LC 0%Z ltac:(lia)). simpl in LC. lia.
        -- assert (L := Forall_inv R). simpl in L. lia.
      * apply direct_integer. right. split; [assumption|].
        match goal with L : smallest _ _ w |- _ => destruct L as (I & LB & LC) end.
        intros v Hv. specialize (LB v Hv). simpl in I. destruct I as [<-|[<-|[<-|[<-|[]]]]]; lia.
    + intros H. inversion H as [lo hi K| | | | ]; subst; try discriminate. assert (L := Forall_inv R). simpl in L.
      destruct K as [(K1 & K2)|(K1 & K2)].
      * exists (bit_length hi). rewrite base_size_unsigned by assumption. split; [reflexivity|].
        assert (W := bit_length_least hi ltac:(lia)). destruct W as (W1 & W2 & _).
        destruct (Z.eq_dec (bit_length hi) 0) as [Z0|Z0]; [rewrite Z0 in W2; simpl in W2; lia|lia].
      * rewrite base_size_signed by assumption. assert (W := signed_size_spec lo hi L).
        destruct (get_bit_size _ _ _) as [w|er|]; [| |destruct W].
        -- exists w. split; [reflexivity|]. destruct W as (I & _). simpl in I. lia.
        -- exfalso. destruct er; try destruct W. apply (W 64%Z); [simpl; tauto|exact K2].
  - destruct (N eq_refl).
  - split; [intros _; apply direct_boolean; reflexivity|]. intros _. exists 1%Z. split; [reflexivity|lia].
  - split.
    + intros (w & H & _). unfold base_size in H. destruct k; discriminate.
    + intros H. inversion H; discriminate.
  - rewrite direct_array_base by exact T. split.
    + intros [H|[H|H]]; [apply direct_boolean|apply direct_float|apply direct_double]; exact H.
    + intros H. inversion H; subst; auto.
  - setoid_rewrite <- V. split.
    + intros (w & H & _). inversion H; [apply direct_float|apply direct_double]; reflexivity.
    + intros H. inversion H as [| |t' H'|t' H'|t' H']; subst; simpl in H'; try discriminate; injection H' as ->.
      * exists 32%Z. split; [constructor|lia].
      * exists 64%Z. split; [constructor|lia].
Qed.

(** ** Members *)

Lemma posix_integers_in : forall n, In n (map fst POSIX_INTEGERS) <-> In n POSIX_INTEGER_NAMES.
Proof. intros n. simpl. tauto. Qed.

Section Members.
Variables (names : list string) (input : list module) (b : bundle) (bm : bmodule) (d : definition) (k : member).
Hypothesis C : config names input b.
Hypothesis Hbm : In bm (b_modules b).
Hypothesis Hd : In d (mod_defs (bm_mod bm)).
Hypothesis Hk : In k (members_of d).

Lemma used_defined : forall n, element (m_type k) = TName n -> exists x, In x (all_defs b) /\ def_name x = n.
Proof.
  intros n He. destruct (config_used_type _ _ _ _ _ _ _ C Hbm Hd Hk He) as [H|(i & im & Hi & Him & H)];
  apply in_map_iff in H; destruct H as (x & Ex & Hx); exists x; (split; [|exact Ex]); apply in_all_defs.
  - eauto.
  - exists im. split; [eapply nth_error_In; exact Him|exact Hx].
Qed.

Lemma field_needs : forall fuel f, field_for fuel (all_defs b) (simple_definition_list b bm) k f ->
  has_c_type (all_defs b) (m_type k).
Proof.
  intros fuel f Hf.
  destruct (field_member names input b bm d k C Hbm Hd Hk) as (_ & T & R & NN).
  destruct (element (m_type k)) as [r|r| | |sk len|len e|n] eqn:He.
  - destruct (m_type k) as [r'|r'| | |sk' len'|len' e'|n'] eqn:Et; simpl in He; try discriminate.
    + destruct (field_direct names input b bm k fuel f C Hbm Hf) as (cm & Hcm & _); [rewrite Et; exact I|].
      rewrite Et in Hcm. apply has_number; [right; eauto|]. apply direct_iff; try assumption; [discriminate|eauto].
    + exfalso. destruct Hf as (sb & si & H). unfold convert_member, map_member in H. rewrite Et in H.
      assert (E : type_name e' = "REAL") by (clear - He; induction e'; cbn in *; try discriminate; auto).
      cbn [type_name] in H. rewrite E in H. change (mem (c_name "REAL") _) with true in H. apply bind_ok in H. destruct H as (cm & H & _).
      unfold map_direct, get_c_type, asn1_type in H. cbn [type_begin type_end type_name] in H. rewrite E in H. discriminate.
  - destruct (m_type k) as [r'|r'| | |sk' len'|len' e'|n'] eqn:Et; simpl in He; try discriminate.
    + destruct (field_direct names input b bm k fuel f C Hbm Hf) as (cm & Hcm & _); [rewrite Et; exact I|].
      rewrite Et in Hcm. apply has_number; [left; eauto|]. apply direct_iff; try assumption; [discriminate|eauto].
    + exfalso. destruct Hf as (sb & si & H). unfold convert_member, map_member in H. rewrite Et in H.
      assert (E : type_name e' = "INTEGER") by (clear - He; induction e'; cbn in *; try discriminate; auto).
      cbn [type_name] in H. rewrite E in H. change (mem (c_name "INTEGER") _) with true in H. apply bind_ok in H. destruct H as (cm & H & _).
      unfold map_direct, get_c_type, asn1_type in H. cbn [type_begin type_end type_name] in H. rewrite E in H. discriminate.
  - congruence.
  - apply has_boolean. exact He.
  - eapply has_string. exact He.
  - exfalso. clear - He. induction (m_type k); simpl in He; try discriminate. auto.
  - destruct (used_defined n He) as (x & Hx & Ex). destruct (is_simple x) eqn:Sx.
    + destruct x as [| | |n' t' c']; try discriminate. simpl in Ex. subst n'.
      apply (has_simple _ _ n t' c' He Hx). rewrite posix_integers_in.
      destruct (in_dec string_dec n POSIX_INTEGER_NAMES) as [P|P]; [left; exact P|right].
      destruct (field_simple names input b bm d k fuel f C Hbm Hd Hk Hf n t' c' He Hx) as [_ F2].
      destruct (F2 P) as (cm & Hcm & _).
      destruct (accepted_simple _ _ _ _ _ (proj1 C) (config_accepted _ _ _ C) Hx) as (T' & R' & N' & _).
      apply direct_iff; eauto.
    + eapply has_other; eassumption.
Qed.

Lemma no_lower : forall s ch r sd, s = String ch r -> is_upper ch = false ->
  find (fun sd => String.eqb (c_name (fst sd)) s) (simple_definition_list b bm) = Some sd -> False.
Proof. intros s ch r sd -> U H. rewrite (sds_find_lower names input b bm ch r C Hbm U) in H. discriminate. Qed.

(** With the right C type a field is found. *)
Lemma convert_ok : forall fuel cm, map_member fuel (all_defs b) (m_type k) = Ok cm ->
  (forall sd, find (fun sd => String.eqb (c_name (fst sd))
      (if mem (lowerize (cm_ctype cm)) POSIX_DEFINED_TYPES then lowerize (cm_ctype cm) else cm_ctype cm))
      (simple_definition_list b bm) = Some sd -> exists cm', map_direct (snd sd) = Ok cm') ->
  exists f, field_for fuel (all_defs b) (simple_definition_list b bm) k f.
Proof.
  intros fuel cm Hm H. unfold field_for, convert_member. rewrite Hm. cbn [bind].
  destruct (find _ _) as [sd|].
  - destruct (H sd eq_refl) as (cm' & E). rewrite E. cbn [bind]. do 3 eexists. reflexivity.
  - cbn [bind]. do 3 eexists. reflexivity.
Qed.

Lemma field_suffices : forall fuel, (1 <= fuel)%nat -> has_c_type (all_defs b) (m_type k) ->
  exists f, field_for fuel (all_defs b) (simple_definition_list b bm) k f.
Proof.
  intros fuel F H.
  destruct (field_member names input b bm d k C Hbm Hd Hk) as (_ & T & R & NN).
  destruct H as [E|sk len E|E D|n t' c' E I P|n x E I Ex S].
  - assert (Y : type_name (m_type k) = "BOOLEAN") by (clear - E; induction (m_type k); cbn in *; try discriminate; auto).
    apply (convert_ok fuel (mkcmap (Some 1%Z) "uint8_t" false true)).
    + unfold map_member. rewrite Y. reflexivity.
    + intros sd H. exfalso. eapply no_lower; [| |exact H]; reflexivity.
  - assert (Y : c_name (type_name (m_type k)) = "char").
    { clear - E. induction (m_type k); simpl in *; try discriminate; auto. injection E as -> ->. destruct sk; reflexivity. }
    apply (convert_ok fuel (mkcmap None "char" false false)).
    + unfold map_member. rewrite Y. change (mem "char" _) with false. change (String.eqb "char" _) with false. cbv iota.
      destruct (m_type k); simpl in E; try discriminate; reflexivity.
    + intros sd H. exfalso. eapply no_lower; [| |exact H]; reflexivity.
  - assert (X : exists cm, map_direct (m_type k) = Ok cm) by (apply direct_iff; assumption). destruct X as (cm & X).
    assert (Lo : exists ch r, (if mem (lowerize (cm_ctype cm)) POSIX_DEFINED_TYPES then lowerize (cm_ctype cm) else cm_ctype cm) = String ch r
                   /\ is_upper ch = false).
    { clear - X. unfold map_direct in X. destruct (get_c_type _) as [c|]; [|discriminate]. apply bind_ok in X. destruct X as (w & _ & X).
      apply bind_ok in X. destruct X as (u & _ & X).
      destruct c; try (injection X as <-; do 2 eexists; split; reflexivity).
      destruct (mem _ _) eqn:M; injection X as <-; cbn [cm_ctype].
      - apply mem_In in M. simpl in M. repeat (destruct M as [M|M]; [rewrite <- M; do 2 eexists; split; reflexivity|]). destruct M.
      - do 2 eexists; split; reflexivity. }
    apply (convert_ok fuel cm).
    + unfold map_member. destruct E as [(r & E)|(r & E)]; rewrite E in *; exact X.
    + destruct Lo as (ch & r & -> & U). intros sd H. rewrite (sds_find_lower names input b bm _ _ C Hbm U) in H. discriminate.
  - assert (Hc := config_capital _ _ _ _ C I). simpl in Hc.
    apply (convert_ok fuel (mkcmap None (c_name n) false false)).
    + rewrite (map_member_named b k fuel n (element_name _ _ E) Hc). unfold resolve.
      destruct (m_type k) as [r|r| | |s l|l e|n']; try discriminate; try reflexivity.
      simpl in E. injection E as ->. simpl.
      assert (L := lookup_here names input b C _ I). simpl in L. rewrite L. reflexivity.
    + intros sd H. cbn [cm_ctype] in H. destruct (mem (lowerize (c_name n)) POSIX_DEFINED_TYPES) eqn:M.
      * assert (Z : exists ch r, lowerize (c_name n) = String ch r /\ is_upper ch = false).
        { apply mem_In in M. simpl in M. repeat (destruct M as [<-|M]; [do 2 eexists; split; reflexivity|]). destruct M. }
        destruct Z as (ch & r & Z & Hu). rewrite Z in H. rewrite (sds_find_lower names input b bm ch r C Hbm Hu) in H. discriminate.
      * rewrite (sds_find names input b bm d k n t' c' C Hbm Hd Hk E I) in H. injection H as <-. cbn [snd].
        destruct P as [P|P].
        -- exfalso. rewrite posix_integers_in in P. apply (posix_lower n Hc) in P. apply mem_In in P. congruence.
        -- destruct (accepted_simple _ _ _ _ _ (proj1 C) (config_accepted _ _ _ C) I) as (T' & R' & N' & _).
           apply direct_iff; assumption.
  - assert (Hc := config_capital _ _ _ _ C I). rewrite Ex in Hc.
    assert (M : exists bits, map_member fuel (all_defs b) (m_type k) = Ok (mkcmap bits (c_name n) false false)).
    { rewrite (map_member_named b k fuel n (element_name _ _ E) Hc).
      destruct (resolve (all_defs b) (m_type k)) as [| |x'|] eqn:Er; try (eexists; reflexivity).
      destruct x' as [| |n' c' l'|]; try (eexists; reflexivity).
      destruct fuel as [|fuel]; [lia|]. cbn [member_size]. rewrite Er.
      assert (Hl : In (DEnumerated n' c' l') (all_defs b)).
      { unfold resolve in Er. destruct (m_type k); try discriminate; destruct (lookup_def _ _) eqn:L; try discriminate;
        injection Er as ->; apply (lookup_In _ _ _ L). }
      destruct (parsed_enum _ _ _ C _ _ _ Hl) as (_ & _ & w & W & _). rewrite W. eexists. reflexivity. }
    destruct M as (bits & M). apply (convert_ok fuel _ M). intros sd H. exfalso. cbn [cm_ctype] in H.
    destruct (mem (lowerize (c_name n)) POSIX_DEFINED_TYPES) eqn:Q.
    + assert (Z : exists ch r, lowerize (c_name n) = String ch r /\ is_upper ch = false).
      { apply mem_In in Q. simpl in Q. repeat (destruct Q as [<-|Q]; [do 2 eexists; split; reflexivity|]). destruct Q. }
      destruct Z as (ch & r & Z & Hu). rewrite Z in H. rewrite (sds_find_lower names input b bm ch r C Hbm Hu) in H. discriminate.
    + rewrite (sds_find_none names input) in H; try assumption; [discriminate|].
      intros n' t c Hn' E'. apply c_name_inj in E'; [|apply capital_name; exact (config_capital _ _ _ _ C Hn')
        |apply capital_name; exact Hc].
      subst n'. assert (G := config_unique _ _ _ _ _ C Hn' I (eq_sym Ex)). subst x. discriminate.
Qed.
End Members.

(** ** Definitions *)

Definition convertible (fuel : nat) (defs : list definition) (sds : list (string * asn_type))
           (note : string -> asn_type -> result (option string)) (wch : string -> member -> result cdata)
           (d : definition) : Prop :=
  match d with
  | DSimple n t _ => exists s, note n t = Ok s
  | DSequence n _ l => l <> [] /\ forall k, In k l -> (exists f, field_for fuel defs sds k f)
      /\ (m_with k <> None -> exists c, wch (c_name n) k = Ok c)
  | _ => True
  end.

Lemma convert_members_ok : forall fuel defs sds wch n l fields acc,
  (exists x, convert_members fuel defs sds wch n l fields acc = Ok x)
  <-> forall k, In k l -> (exists f, field_for fuel defs sds k f) /\ (m_with k <> None -> exists c, wch (c_name n) k = Ok c).
Proof.
  intros fuel defs sds wch n. induction l as [|m r IH]; intros fields acc; cbn [convert_members].
  - split; [intros _ k []|]. intros _. eexists. reflexivity.
  - split.
    + intros (x & H). apply bind_ok in H. destruct H as (((f & sb) & si) & Hf & H). apply bind_ok in H. destruct H as (acc' & Hw & H).
      intros k [<-|Hk].
      * split; [exists f, sb, si; exact Hf|]. intros N. destruct (m_with m); [|congruence]. apply bind_ok in Hw. destruct Hw as (c & Hw & _). eauto.
      * eapply IH; eauto.
    + intros H. destruct (H m (or_introl eq_refl)) as ((f & sb & si & Hf) & Hw). rewrite Hf. cbn [bind].
      destruct (m_with m) as [w|].
      * destruct (Hw ltac:(discriminate)) as (c & Hc). rewrite Hc. cbn [bind]. apply IH. intros k Hk. apply H. right. exact Hk.
      * cbn [bind]. apply IH. intros k Hk. apply H. right. exact Hk.
Qed.

Lemma convert_definition_ok : forall fuel defs sds note wch d acc,
  (exists c, convert_definition fuel defs sds note wch acc d = Ok c) <-> convertible fuel defs sds note wch d.
Proof.
  intros fuel defs sds note wch d acc. destruct d as [n c l|n c l|n c l|n t c]; cbn [convert_definition convertible].
  - unfold convert_sequence. rewrite <- (convert_members_ok fuel defs sds wch n l [] empty_cdata). split.
    + intros (x & H). apply bind_ok in H. destruct H as (y & H & _). apply bind_ok in H. destruct H as ((fs & a) & H & H').
      split; [|eauto]. apply bind_ok in H'. destruct H' as (u & H' & _). apply assert_ok' in H'. destruct l; [discriminate|discriminate].
    + intros (N & (fs & a) & H). rewrite H. cbn [bind]. destruct l; [congruence|]. cbn. eexists. reflexivity.
  - split; [trivial|eexists; reflexivity].
  - split; [trivial|eexists; reflexivity].
  - split.
    + intros (x & H). apply bind_ok in H. destruct H as (s & H & _). eauto.
    + intros (s & H). rewrite H. eexists. reflexivity.
Qed.

Lemma convert_definitions_ok : forall fuel defs sds note wch l acc,
  (exists c, convert_definitions fuel defs sds note wch l acc = Ok c) <-> Forall (convertible fuel defs sds note wch) l.
Proof.
  intros fuel defs sds note wch. induction l as [|d r IH]; intros acc; cbn [convert_definitions].
  - split; [constructor|eexists; reflexivity].
  - split.
    + intros (c & H). apply bind_ok in H. destruct H as (a & H & H'). constructor.
      * apply convert_definition_ok with (acc := acc). eauto.
      * eapply IH. eauto.
    + intros H. inversion H as [|? ? H1 H2]; subst. apply convert_definition_ok with (acc := acc) in H1. destruct H1 as (a & H1).
      rewrite H1. cbn [bind]. apply IH. exact H2.
Qed.

Lemma module_cdata_ok : forall fuel b bm inc note wch,
  (exists c, module_cdata fuel b bm inc note wch = Ok c)
  <-> (exists sorted, sorted_definitions fuel (bm_mod bm) = Ok sorted)
      /\ Forall (convertible fuel (all_defs b) (simple_definition_list b bm) note wch) (mod_defs (bm_mod bm)).
Proof.
  intros fuel b bm inc note wch. unfold module_cdata. split.
  - intros (c & H). apply bind_ok in H. destruct H as (sorted & S & H). apply bind_ok in H. destruct H as (c' & H & _).
    split; [eauto|]. assert (P := sorted_perm _ _ _ S).
    eapply Permutation_Forall; [exact P|]. eapply convert_definitions_ok. eauto.
  - intros ((sorted & S) & H). rewrite S. cbn [bind]. assert (P := sorted_perm _ _ _ S).
    apply (Permutation_Forall (Permutation_sym P)) in H.
    eapply convert_definitions_ok in H. destruct H as (c & H). rewrite H. eexists. reflexivity.
Qed.

(** ** Runs *)

Lemma map_result_total : forall A B (f : A -> result B) l,
  (exists r, map_result f l = Ok r) <-> forall x, In x l -> exists y, f x = Ok y.
Proof.
  intros A B f. induction l as [|x r IH]; cbn [map_result].
  - split; [intros _ x []|eexists; reflexivity].
  - split.
    + intros (y & H). apply bind_ok in H. destruct H as (a & Ha & H). apply bind_ok in H. destruct H as (q & Hq & _).
      intros z [<-|Hz]; [eauto|]. eapply IH; eauto.
    + intros H. destruct (H x (or_introl eq_refl)) as (y & Hy). rewrite Hy. cbn [bind].
      destruct (proj2 IH (fun z Hz => H z (or_intror Hz))) as (q & Hq). rewrite Hq. eexists. reflexivity.
Qed.

Lemma run_ok_iff : forall names cmd fuel input fs, config_command names cmd ->
  snd (run fuel cmd input fs) = Ok tt <->
  exists b l, build_from_config names input = Ok b /\ get_modules_ordered fuel b = Ok l
    /\ forall bm, In bm (b_modules b) -> exists fl, module_files fuel cmd b bm = Ok fl.
Proof.
  intros names cmd fuel input fs Hc. split.
  - intros H. destruct (run fuel cmd input fs) as [fs' r] eqn:E. simpl in H. subst r.
    destruct (run_ok_modules _ _ _ _ _ _ Hc E) as (b & l & fss & Hb & Hl & Hm & _). exists b, l. split; [exact Hb|]. split; [exact Hl|].
    destruct (order_sound _ _ _ _ _ Hb Hl) as (P & _). intros bm Hbm. apply (Permutation_in _ (Permutation_sym P)) in Hbm.
    revert bm Hbm. apply map_result_total. eauto.
  - intros (b & l & Hb & Hl & H). rewrite (run_config names) by exact Hc. rewrite Hb. unfold generate_modules. rewrite Hl.
    destruct (order_sound _ _ _ _ _ Hb Hl) as (P & _).
    assert (X : exists fss, map_result (module_files fuel cmd b) l = Ok fss).
    { apply map_result_total. intros x Hx. apply H. eapply Permutation_in; eassumption. }
    destruct X as (fss & X).
    assert (Y := proj2 (for_modules_ok (module_files fuel cmd b) l [] (concat fss)) (ex_intro _ fss (conj X eq_refl))).
    rewrite Y. reflexivity.
Qed.

Lemma same_is_simple : forall d d', same_definition d d' -> is_simple d' = is_simple d.
Proof. intros [| | |] d' H; simpl in H; [subst; reflexivity|subst; reflexivity| |subst; reflexivity]. destruct H as (l' & -> & _). reflexivity. Qed.

Lemma has_c_type_sub : forall ds ds' t, Forall2 same_definition ds ds' -> has_c_type ds' t <-> has_c_type ds t.
Proof.
  intros ds ds' t S. split; intros H; destruct H as [E|sk len E|E D|n t' c' E I P|n x E I Ex N].
  - apply has_boolean; assumption.
  - eapply has_string; eassumption.
  - apply has_number; assumption.
  - apply (has_simple _ _ n t' c' E); [|exact P]. apply (Accept_proofs.same_simple _ _ n t' c' S). exact I.
  - destruct (Forall2_in_r _ _ _ _ _ _ S I) as (y & Hy & Sy). eapply has_other; [exact E|exact Hy| |].
    + rewrite <- Ex. symmetry. apply same_definition_name. exact Sy.
    + rewrite <- N. symmetry. apply same_is_simple. exact Sy.
  - apply has_boolean; assumption.
  - eapply has_string; eassumption.
  - apply has_number; assumption.
  - apply (has_simple _ _ n t' c' E); [|exact P]. apply (Accept_proofs.same_simple _ _ n t' c' S). exact I.
  - destruct (Forall2_in_l _ _ _ _ _ _ S I) as (y & Hy & Sy). eapply has_other; [exact E|exact Hy| |].
    + rewrite <- Ex. apply same_definition_name. exact Sy.
    + rewrite <- N. apply same_is_simple. exact Sy.
Qed.

Lemma same_uses_local : forall m m', same_module m m' -> forall x y, uses_local m' x y <-> uses_local m x y.
Proof.
  intros m m' S x y. assert (N := same_defined_names _ _ S). destruct S as (_ & _ & _ & S). split.
  - intros (d & k & Hd & Ed & Hk & Et & Hy). destruct (Forall2_in_r _ _ _ _ _ _ S Hd) as (d0 & H0 & S0).
    exists d0, k. rewrite <- (same_definition_members _ _ S0), <- N. rewrite <- Ed. repeat split; try assumption.
    symmetry. apply same_definition_name. exact S0.
  - intros (d & k & Hd & Ed & Hk & Et & Hy). destruct (Forall2_in_l _ _ _ _ _ _ S Hd) as (d0 & H0 & S0).
    exists d0, k. rewrite (same_definition_members _ _ S0), N. rewrite <- Ed. repeat split; try assumption.
    apply same_definition_name. exact S0.
Qed.

Section Runs.
Variables (names : list string) (input : list module).
Hypothesis Hg : Forall (fun m => grammatical m = true) input.

Lemma bundle_same : forall b, build_from_config names input = Ok b ->
  Forall2 same_module input (map bm_mod (b_modules b)) /\ Forall2 same_definition (definitions input) (all_defs b).
Proof.
  intros b Hb. destruct (accepted_same input b) as (A & B & _); [left; exists names; exact Hb|]. split; assumption.
Qed.

Lemma bundle_lengths : forall b bm, build_from_config names input = Ok b -> In bm (b_modules b) ->
  (length (mod_defs (bm_mod bm)) <= length (definitions input))%nat.
Proof.
  intros b bm Hb Hbm. destruct (bundle_same b Hb) as (A & B). apply Forall2_length in B. rewrite B. unfold all_defs.
  apply (in_map bm_mod) in Hbm. fold (all_modules b) in Hbm. clear - Hbm. induction (all_modules b) as [|m r IH]; [destruct Hbm|].
  cbn [flat_map]. rewrite app_length. destruct Hbm as [->|H]; [lia|]. apply IH in H. lia.
Qed.

Lemma bundle_sequence : forall b n c l, build_from_config names input = Ok b ->
  In (DSequence n c l) (definitions input) <->
  exists bm, In bm (b_modules b) /\ In (DSequence n c l) (mod_defs (bm_mod bm)).
Proof.
  intros b n c l Hb. destruct (bundle_same b Hb) as (_ & S). rewrite <- (same_sequences _ _ n c l S). apply in_all_defs.
Qed.

Lemma sequence_nonempty : forall n c l, In (DSequence n c l) (definitions input) -> l <> [].
Proof.
  intros n c l H. unfold definitions in H. apply in_flat_map in H. destruct H as (m & Hm & Hd).
  rewrite Forall_forall in Hg. assert (G := Check_proofs.grammatical_defs _ _ (Hg _ Hm) Hd). intros ->. cbn in G. lia.
Qed.

Definition cmd_note (cmd : command) (b : bundle) : string -> asn_type -> result (option string) :=
  match cmd with
  | GenerateCfs _ => cfs_note b
  | GenerateBinary _ _ => bin_note
  | _ => c_note
  end.
Definition cmd_wch (fuel : nat) (cmd : command) (b : bundle) (bm : bmodule) : string -> member -> result cdata :=
  match cmd with
  | GenerateCfs _ => cfs_with_components
  | GenerateBinary _ e => bin_with_components fuel e (all_defs b) (bm_mod bm)
  | _ => c_with_components (bm_name bm)
  end.

Lemma module_files_ok : forall fuel cmd b bm, config_command names cmd ->
  (exists fl, module_files fuel cmd b bm = Ok fl)
  <-> (exists sorted, sorted_definitions fuel (bm_mod bm) = Ok sorted)
      /\ Forall (convertible fuel (all_defs b) (simple_definition_list b bm) (cmd_note cmd b) (cmd_wch fuel cmd b bm))
                (mod_defs (bm_mod bm)).
Proof.
  intros fuel cmd b bm Hc.
  assert (X : forall (r : result cdata) (f : cdata -> list file), (exists fl, (let* c := r in Ok (f c)) = Ok fl) <-> exists c, r = Ok c).
  { intros r f. split; [intros (fl & H); apply bind_ok in H; destruct H as (c & H & _); eauto|]. intros (c & ->). eexists. reflexivity. }
  destruct Hc as [->|[->|(e & ->)]]; cbn [module_files cmd_note cmd_wch].
  - unfold cfs_module. eapply iff_trans; [apply X|]. apply module_cdata_ok.
  - unfold c_module. eapply iff_trans; [apply X|]. apply module_cdata_ok.
  - unfold bin_module. eapply iff_trans; [apply X|]. apply module_cdata_ok.
Qed.

(** What a command needs besides. *)
Definition extras (fuel : nat) (cmd : command) (b : bundle) : Prop :=
  (forall n t c, In (DSimple n t c) (definitions input) -> exists s, cmd_note cmd b n t = Ok s)
  /\ forall bm n c l k, In bm (b_modules b) -> In (DSequence n c l) (mod_defs (bm_mod bm)) -> In k l -> m_with k <> None ->
       exists c', cmd_wch fuel cmd b bm (c_name n) k = Ok c'.

Lemma run_needs : forall cmd fuel fs, config_command names cmd -> snd (run fuel cmd input fs) = Ok tt ->
  processable names input /\ exists b, build_from_config names input = Ok b /\ extras fuel cmd b.
Proof.
  intros cmd fuel fs Hc R. assert (R' := R). apply (run_ok_iff names) in R; [|exact Hc]. destruct R as (b & l & Hb & Hl & H).
  assert (S := bundle_same b Hb). destruct S as (S & SD).
  assert (D : forall bm d, In bm (b_modules b) -> In d (mod_defs (bm_mod bm)) ->
     convertible fuel (all_defs b) (simple_definition_list b bm) (cmd_note cmd b) (cmd_wch fuel cmd b bm) d).
  { intros bm d Hbm Hd. apply H in Hbm. apply module_files_ok in Hbm; [|exact Hc]. destruct Hbm as (_ & F).
    rewrite Forall_forall in F. auto. }
  split; [|exists b; split; [exact Hb|]].
  - constructor.
    + apply bundle_accepted_iff; eauto.
    + intros Cy. apply (run_cyclic names cmd fuel input fs b Hc Hb) in Cy. rewrite Cy in R'. discriminate.
    + intros m Hm Cy. destruct (Forall2_in_l _ _ _ _ _ _ S Hm) as (m' & Hm' & Sm). apply in_map_iff in Hm'. destruct Hm' as (bm & <- & Hbm).
      apply (run_recursive names cmd fuel input fs b bm Hc Hg Hb Hbm); [|exact R'].
      apply (cyclic_iff _ _ (same_uses_local _ _ Sm)). exact Cy.
    + intros n c l' k Hd Hk. apply (bundle_sequence b n c l' Hb) in Hd. destruct Hd as (bm & Hbm & Hd).
      destruct (D bm _ Hbm Hd) as (_ & F). destruct (F k Hk) as ((f & Hf) & _).
      apply (has_c_type_sub _ _ (m_type k) SD). eapply (field_needs names input b bm (DSequence n c l') k); try eassumption. split; assumption.
  - split.
    + intros n t c Hd. apply (Accept_proofs.same_simple _ _ n t c SD) in Hd. apply in_all_defs in Hd. destruct Hd as (bm & Hbm & Hd).
      exact (D bm _ Hbm Hd).
    + intros bm n c l' k Hbm Hd Hk W. destruct (D bm _ Hbm Hd) as (_ & F). apply (F k Hk). exact W.
Qed.

Lemma run_suffices : forall cmd fuel fs b, config_command names cmd -> processable names input ->
  build_from_config names input = Ok b -> extras fuel cmd b ->
  (S (length input + length (definitions input)) <= fuel)%nat -> snd (run fuel cmd input fs) = Ok tt.
Proof.
  intros cmd fuel fs b Hc [PV PI PT PM] Hb (N & W) F. apply (run_ok_iff names); [exact Hc|].
  destruct (modules_ordered names input b fuel Hb PI ltac:(lia)) as (l & Hl & _). exists b, l. split; [exact Hb|]. split; [exact Hl|].
  destruct (bundle_same b Hb) as (S & SD).
  intros bm Hbm. apply module_files_ok; [exact Hc|]. split.
  - destruct (definitions_ordered names input b bm fuel Hg Hb Hbm) as (sorted & Hs & _); [| | |eauto].
    + intros X. apply PI. eapply self_import_cyclic; eassumption.
    + assert (Hm := in_map bm_mod _ _ Hbm). destruct (Forall2_in_r _ _ _ _ _ _ S Hm) as (m & Hmi & Sm).
      intros Cy. apply (PT m Hmi). apply (cyclic_iff _ _ (same_uses_local _ _ Sm)). exact Cy.
    + assert (L := bundle_lengths b bm Hb Hbm). lia.
  - apply Forall_forall. intros d Hd. destruct d as [n c l'|n c l'|n c l'|n t c]; cbn [convertible]; trivial.
    + assert (Hi : In (DSequence n c l') (definitions input)) by (apply (bundle_sequence b n c l' Hb); eauto).
      split; [exact (sequence_nonempty _ _ _ Hi)|]. intros k Hk. split; [|eauto].
      eapply (field_suffices names input b bm (DSequence n c l') k); try eassumption.
      * split; assumption.
      * lia.
      * apply (has_c_type_sub _ _ (m_type k) SD). eauto.
    + apply (N n t c). apply (Accept_proofs.same_simple _ _ n t c SD). apply in_all_defs. eauto.
Qed.

Lemma run_bundle : processable names input -> exists b, build_from_config names input = Ok b.
Proof. intros [V _ _ _]. apply bundle_accepted_iff; assumption. Qed.

(** *** c *)

Lemma c_run_iff : forall fs,
  (forall fuel, snd (run fuel (GenerateC names) input fs) = Ok tt -> processable names input)
  /\ (processable names input -> forall fuel, (S (length input + length (definitions input)) <= fuel)%nat ->
      snd (run fuel (GenerateC names) input fs) = Ok tt).
Proof.
  intros fs. split.
  - intros fuel H. apply run_needs in H; [apply H|right; left; reflexivity].
  - intros P fuel F. destruct (run_bundle P) as (b & Hb). eapply run_suffices; try eassumption; [right; left; reflexivity|]. split.
    + intros n t c _. eexists. reflexivity.
    + intros bm n c l k _ _ _ W. cbn [cmd_wch]. unfold c_with_components. destruct (m_with k); eexists; reflexivity.
Qed.

(** *** cfs *)

Lemma note_ok_iff : forall b n t, build_from_config names input = Ok b ->
  (exists s, cfs_note b n t = Ok s) <-> forall m, In m input -> uses_type m n -> exists w, simple_size t = Ok w.
Proof.
  intros b n t Hb. destruct (note_text names input b n t Hg Hb) as [(U & ->)|(users & U0 & _ & _ & U & ->)].
  - split; [|eexists; reflexivity]. intros _ m Hm Hu. destruct (U m Hm Hu).
  - split.
    + intros (s & H) _ _ _. apply bind_ok in H. destruct H as (w & H & _). eauto.
    + intros H. destruct users as [|u us]; [congruence|]. destruct (proj1 (U u) (or_introl eq_refl)) as (m & Hm & _ & Hu).
      destruct (H m Hm Hu) as (w & ->). eexists. reflexivity.
Qed.

Lemma simple_value_size : forall b n t c w, build_from_config names input = Ok b -> In (DSimple n t c) (definitions input) ->
  value_size t w <-> simple_size t = Ok w.
Proof.
  intros b n t c w Hb Hd. destruct (bundle_same b Hb) as (_ & SD). apply (Accept_proofs.same_simple _ _ n t c SD) in Hd.
  destruct (accepted_simple input b n t c Hg ltac:(left; eauto) Hd) as (T & R & N & _). apply value_size_base; assumption.
Qed.

Lemma cfs_run_iff : forall fs,
  (forall fuel, snd (run fuel (GenerateCfs names) input fs) = Ok tt -> processable names input /\ cfs_processable input)
  /\ (processable names input -> cfs_processable input ->
      forall fuel, (S (length input + length (definitions input)) <= fuel)%nat ->
      snd (run fuel (GenerateCfs names) input fs) = Ok tt).
Proof.
  intros fs. split.
  - intros fuel H. apply run_needs in H; [|left; reflexivity]. destruct H as (P & b & Hb & N & W). split; [exact P|]. constructor.
    + intros n c l k w Hd Hk Ew. apply (bundle_sequence b n c l Hb) in Hd. destruct Hd as (bm & Hbm & Hd).
      destruct (W bm n c l k Hbm Hd Hk ltac:(congruence)) as (c' & H). cbn [cmd_wch] in H. unfold cfs_with_components in H. rewrite Ew in H.
      apply bind_ok in H. destruct H as (x & H & _). apply (cfs_defines_ok_iff (c_name n) w). eauto.
    + intros n t c m Hd Hm Hu. destruct (N n t c Hd) as (s & Hs). cbn [cmd_note] in Hs.
      destruct (proj1 (note_ok_iff b n t Hb) (ex_intro _ s Hs) m Hm Hu) as (w & Hw). exists w. eapply simple_value_size; eassumption.
  - intros P [H1 H2] fuel F. destruct (run_bundle P) as (b & Hb). eapply run_suffices; try eassumption; [left; reflexivity|]. split.
    + intros n t c Hd. cbn [cmd_note]. apply note_ok_iff; [exact Hb|]. intros m Hm Hu. destruct (H2 n t c m Hd Hm Hu) as (w & Hw).
      exists w. eapply simple_value_size; eassumption.
    + intros bm n c l k Hbm Hd Hk Wk. cbn [cmd_wch]. unfold cfs_with_components. destruct (m_with k) as [w|] eqn:Ew; [|congruence].
      assert (Hi : In (DSequence n c l) (definitions input)) by (apply (bundle_sequence b n c l Hb); eauto).
      assert (E := H1 n c l k w Hi Hk Ew). apply (cfs_defines_ok_iff (c_name n) w) in E. destruct E as (x & ->). eexists. reflexivity.
Qed.
End Runs.
