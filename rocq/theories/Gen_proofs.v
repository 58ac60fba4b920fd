(** * The declarations of a generated header *)
From Verif Require Import Base PyNum PyStr Ast Size Processor Bundle Sorter CCommon GenCfs GenC GenBinary
  Lib_proofs Spec_Gen.
Open Scope list_scope.

(** ** Sorting definitions is a reordering *)

Lemma sort_pass_perm : forall todo done defined done' defined' rest,
  sort_pass todo done defined = (done', defined', rest) ->
  exists new, done' = done ++ new /\ defined' = defined ++ map def_name new
    /\ Permutation todo (new ++ rest).
Proof.
  induction todo as [|d r IH]; intros done defined done' defined' rest H; simpl in H.
  - injection H as <- <- <-. exists []. rewrite !app_nil_r. auto.
  - destruct (all_defined defined d).
    + apply IH in H. destruct H as (new & -> & -> & P). exists (d :: new).
      rewrite <- !app_assoc. simpl. auto.
    + destruct (sort_pass r done defined) as [[x y] z] eqn:E. injection H as <- <- <-.
      apply IH in E. destruct E as (new & -> & -> & P). exists new.
      split; [reflexivity|]. split; [reflexivity|].
      eapply perm_trans; [apply perm_skip; exact P|]. apply Permutation_middle.
Qed.

Lemma sort_loop_perm : forall fuel todo done defined l,
  sort_loop fuel todo done defined = Ok l -> Permutation l (done ++ todo).
Proof.
  induction fuel as [|f IH]; intros todo done defined l H.
  - destruct todo; simpl in H; [|discriminate]. injection H as <-. rewrite app_nil_r. auto.
  - destruct todo as [|d r]; [simpl in H; injection H as <-; rewrite app_nil_r; auto|].
    cbn [sort_loop] in H. destruct (sort_pass (d :: r) done defined) as [[x y] z] eqn:E.
    apply IH in H. apply sort_pass_perm in E. destruct E as (new & -> & _ & P).
    eapply perm_trans; [exact H|]. rewrite <- app_assoc. apply Permutation_app_head.
    apply Permutation_sym. exact P.
Qed.

Lemma sorted_perm : forall fuel m l, sorted_definitions fuel m = Ok l -> Permutation l (mod_defs m).
Proof. intros fuel m l H. apply sort_loop_perm in H. exact H. Qed.

(** ** The declarations *)

Definition field_for (fuel : nat) (defs : list definition) (sds : list (string * asn_type))
           (k : member) (f : cfield) : Prop :=
  exists sb si, convert_member fuel defs sds k = Ok (f, sb, si).

Inductive declares (fuel : nat) (defs : list definition) (sds : list (string * asn_type))
  : definition -> list cdecl -> Prop :=
| decl_simple : forall n t c, declares fuel defs sds (DSimple n t c) []
| decl_sequence : forall n c l fields,
    Forall2 (field_for fuel defs sds) l fields ->
    declares fuel defs sds (DSequence n c l) [CStruct (def_comment_text c) (c_name n) fields]
| decl_enum : forall n c l,
    declares fuel defs sds (DEnumerated n c l)
      [CEnum (def_comment_text c) (c_name n)
         (map (fun e => (c_name (e_key e), e_pos e, option_map item_comment (e_comment e))) l)]
| decl_choice : forall n c l,
    declares fuel defs sds (DChoice n c l)
      [CUnion (def_comment_text c) (c_name n) (lowerize (c_name n))
          (map (fun m => (c_name (type_name (m_type m)), c_name (m_key m),
                          option_map item_comment (m_comment m))) l)].

Lemma convert_members_data : forall fuel defs sds wch name,
  (forall n k c, wch n k = Ok c -> cd_data c = []) ->
  forall l fields acc fields' acc',
  convert_members fuel defs sds wch name l fields acc = Ok (fields', acc') ->
  cd_data acc' = cd_data acc
  /\ exists new, fields' = fields ++ new /\ Forall2 (field_for fuel defs sds) l new.
Proof.
  intros fuel defs sds wch name Hw. induction l as [|k l IH]; intros fields acc fields' acc' H; simpl in H.
  - injection H as <- <-. split; [reflexivity|]. exists []. rewrite app_nil_r. auto.
  - apply bind_ok in H. destruct H as ([[f sb] si] & Hc & H).
    apply bind_ok in H. destruct H as (acc1 & Ha & H).
    assert (D : cd_data acc1 = cd_data acc).
    { destruct (m_with k).
      - apply bind_ok in Ha. destruct Ha as (c & Hk & Ha). injection Ha as <-.
        apply Hw in Hk. simpl. rewrite Hk. apply app_nil_r.
      - injection Ha as <-. reflexivity. }
    apply IH in H. destruct H as (Hd & new & -> & F). split; [congruence|].
    exists (f :: new). rewrite <- app_assoc. split; [reflexivity|]. constructor; [|exact F].
    exists sb, si. exact Hc.
Qed.

Lemma convert_definition_data : forall fuel defs sds note wch,
  (forall n k c, wch n k = Ok c -> cd_data c = []) ->
  forall d acc acc',
  convert_definition fuel defs sds note wch acc d = Ok acc' ->
  exists ds, cd_data acc' = cd_data acc ++ ds /\ declares fuel defs sds d ds.
Proof.
  intros fuel defs sds note wch Hw d acc acc' H. destruct d as [n c l|n c l|n c l|n t c]; simpl in H.
  - apply bind_ok in H. destruct H as (x & Hx & H). injection H as <-.
    unfold convert_sequence in Hx. apply bind_ok in Hx. destruct Hx as ([fields a] & Hm & Hx).
    apply bind_ok in Hx. destruct Hx as (u & _ & Hx). injection Hx as <-.
    destruct (convert_members_data _ _ _ _ _ Hw _ _ _ _ _ Hm) as (E & new & -> & F). simpl in *.
    rewrite E. simpl. eexists. split; [reflexivity|]. constructor. exact F.
  - injection H as <-. eexists. split; [reflexivity|]. simpl. constructor.
  - injection H as <-. eexists. split; [reflexivity|]. simpl. constructor.
  - apply bind_ok in H. destruct H as (s & _ & H). injection H as <-. exists []. rewrite app_nil_r.
    split; [destruct s; reflexivity|constructor].
Qed.

Lemma convert_definitions_data : forall fuel defs sds note wch,
  (forall n k c, wch n k = Ok c -> cd_data c = []) ->
  forall l acc c,
  convert_definitions fuel defs sds note wch l acc = Ok c ->
  exists dss, cd_data c = cd_data acc ++ concat dss /\ Forall2 (declares fuel defs sds) l dss.
Proof.
  intros fuel defs sds note wch Hw. induction l as [|d l IH]; intros acc c H; simpl in H.
  - injection H as <-. exists []. rewrite app_nil_r. auto.
  - apply bind_ok in H. destruct H as (a & Ha & H).
    apply (convert_definition_data _ _ _ _ _ Hw) in Ha. destruct Ha as (ds & E & D).
    apply IH in H. destruct H as (dss & E' & F). exists (ds :: dss). simpl.
    rewrite E', E, <- app_assoc. auto.
Qed.

Lemma module_cdata_data : forall fuel b bm inc note wch c,
  (forall n k c, wch n k = Ok c -> cd_data c = []) ->
  module_cdata fuel b bm inc note wch = Ok c ->
  exists sorted dss, sorted_definitions fuel (bm_mod bm) = Ok sorted
    /\ cd_data c = concat dss
    /\ Forall2 (declares fuel (all_defs b) (simple_definition_list b bm)) sorted dss.
Proof.
  intros fuel b bm inc note wch c Hw H. unfold module_cdata in H.
  apply bind_ok in H. destruct H as (sorted & Hs & H).
  apply bind_ok in H. destruct H as (c1 & Hc & H).
  apply (convert_definitions_data _ _ _ _ _ Hw) in Hc. destruct Hc as (dss & E & F). simpl in E.
  exists sorted, dss. split; [exact Hs|]. split; [|exact F].
  injection H as <-. destruct (mod_comment (bm_mod bm)) as [cm|]; [|exact E].
  destruct (String.eqb (cm_text cm) ""); exact E.
Qed.

Lemma cfs_wch_data : forall n k c, cfs_with_components n k = Ok c -> cd_data c = [].
Proof.
  intros n k c H. unfold cfs_with_components in H. destruct (m_with k).
  - apply bind_ok in H. destruct H as (ds & _ & H). injection H as <-. reflexivity.
  - injection H as <-. reflexivity.
Qed.
Lemma c_wch_data : forall mn n k c, c_with_components mn n k = Ok c -> cd_data c = [].
Proof.
  intros mn n k c H. unfold c_with_components in H. destruct (m_with k); injection H as <-; reflexivity.
Qed.
Lemma bin_wch_data : forall fuel e defs m n k c,
  bin_with_components fuel e defs m n k = Ok c -> cd_data c = [].
Proof.
  intros fuel e defs m n k c H. unfold bin_with_components in H. destruct (m_with k).
  - apply bind_ok in H. destruct H as (? & _ & H).
    apply bind_ok in H. destruct H as (? & _ & H). injection H as <-. reflexivity.
  - injection H as <-. reflexivity.
Qed.

Lemma generated_data : forall fuel b bm c,
  generated fuel b bm c ->
  exists sorted dss, sorted_definitions fuel (bm_mod bm) = Ok sorted
    /\ cd_data c = concat dss
    /\ Forall2 (declares fuel (all_defs b) (simple_definition_list b bm)) sorted dss.
Proof.
  intros fuel b bm c [H|[H|(e & H)]]; (eapply module_cdata_data; [|exact H]).
  - apply cfs_wch_data.
  - apply c_wch_data.
  - apply bin_wch_data.
Qed.

(** The struct of a sequence, and the sequence of a struct. *)
Lemma generated_struct : forall fuel b bm c n cm l,
  generated fuel b bm c -> In (DSequence n cm l) (mod_defs (bm_mod bm)) ->
  exists fields, In (CStruct (def_comment_text cm) (c_name n) fields) (cd_data c)
    /\ Forall2 (field_for fuel (all_defs b) (simple_definition_list b bm)) l fields.
Proof.
  intros fuel b bm c n cm l H Hd. destruct (generated_data _ _ _ _ H) as (sorted & dss & Hs & E & F).
  apply (Permutation_in _ (Permutation_sym (sorted_perm _ _ _ Hs))) in Hd.
  destruct (Forall2_in_l _ _ _ _ _ _ F Hd) as (ds & Hds & D). inversion D; subst.
  exists fields. split; [|assumption]. rewrite E. apply in_concat. eexists. split; [exact Hds|]. left. reflexivity.
Qed.

Lemma generated_decl_inv : forall fuel b bm c x,
  generated fuel b bm c -> In x (cd_data c) ->
  exists d, In d (mod_defs (bm_mod bm)) /\ declares fuel (all_defs b) (simple_definition_list b bm) d [x].
Proof.
  intros fuel b bm c x H Hx. destruct (generated_data _ _ _ _ H) as (sorted & dss & Hs & E & F).
  rewrite E in Hx. apply in_concat in Hx. destruct Hx as (ds & Hds & Hx).
  destruct (Forall2_in_r _ _ _ _ _ _ F Hds) as (d & Hd & D). exists d. split.
  - apply (Permutation_in _ (sorted_perm _ _ _ Hs)). exact Hd.
  - inversion D; subst; [destruct Hx| | |]; (destruct Hx as [<-|[]]; exact D).
Qed.
