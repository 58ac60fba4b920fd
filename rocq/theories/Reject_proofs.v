(** * Proofs about rejected modules and about comments *)
From Coq Require Import ZifyBool ZifyNat ZifyN QArith.
From Verif Require Import Base PyNum PyStr Ast Size Processor CCommon Lib_proofs Str_proofs
  Spec_Enum Spec_Num Spec_Check Spec_Grammar Num_proofs Enum_proofs Check_proofs.
Open Scope Z_scope.
Open Scope list_scope.

(** ** Accepted types *)

Lemma accepted_definitions : forall m m',
  grammatical m = true -> parse_module m = Ok m' -> Forall definition_valid (mod_defs m).
Proof.
  intros m m' Hg H. destruct (proj1 (module_accepted_iff m Hg)) as (_ & G & _); [eauto | exact G].
Qed.

Lemma definition_valid_types : forall d t,
  definition_valid d -> In t (definition_types d) -> ranges_ok t /\ element t <> TNull.
Proof.
  intros [n c l|n c l|n c l|n t0 c] t Hd Ht; simpl in *.
  - apply in_map_iff in Ht. destruct Ht as (k & <- & Hk). rewrite Forall_forall in Hd. auto.
  - apply in_map_iff in Ht. destruct Ht as (k & <- & Hk). rewrite Forall_forall in Hd. auto.
  - destruct Ht.
  - destruct Ht as [<-|[]]. tauto.
Qed.

Lemma accepted_types : forall m m' d t,
  grammatical m = true -> parse_module m = Ok m' -> In d (mod_defs m) ->
  In t (definition_types d) -> ranges_ok t /\ element t <> TNull.
Proof.
  intros m m' d t Hg H Hd Ht. assert (G := accepted_definitions m m' Hg H).
  rewrite Forall_forall in G. exact (definition_valid_types d t (G d Hd) Ht).
Qed.

Lemma reversed_not_ok : forall s, reversed s -> ~ range_ok s.
Proof.
  intros [[[b e]|]|[[b e]|]| | | | |] H; simpl in *; try tauto. lia.
Qed.

Lemma accepted_not_reversed : forall m m' d t s,
  grammatical m = true -> parse_module m = Ok m' -> In d (mod_defs m) ->
  In t (definition_types d) -> In s (subtypes t) -> ~ reversed s.
Proof.
  intros m m' d t s Hg H Hd Ht Hs Hr. destruct (accepted_types m m' d t Hg H Hd Ht) as [G _].
  unfold ranges_ok in G. rewrite Forall_forall in G. exact (reversed_not_ok s Hr (G s Hs)).
Qed.

Lemma null_element : forall t, In TNull (subtypes t) -> element t = TNull.
Proof.
  induction t as [r|r| | |k len|len t IH|n]; simpl; intros H; try (destruct H as [H|[]]; congruence).
  destruct H as [H|H]; [discriminate | auto].
Qed.

Lemma accepted_not_null : forall m m' d t,
  grammatical m = true -> parse_module m = Ok m' -> In d (mod_defs m) ->
  In t (definition_types d) -> ~ In TNull (subtypes t).
Proof.
  intros m m' d t Hg H Hd Ht Hn. destruct (accepted_types m m' d t Hg H Hd Ht) as [_ G].
  apply G. apply null_element. exact Hn.
Qed.

(** ** The error of a module whose only defects are reversed ranges *)

Lemma for_each_only : forall A (f : A -> result unit) l e,
  Forall (fun x => f x = Ok tt \/ f x = Err e) l -> Exists (fun x => f x = Err e) l ->
  for_each f l = Err e.
Proof.
  intros A f l e Hf Hx. induction l as [|x r IH]; [inversion Hx|].
  inversion Hf as [|? ? H1 H2]; subst. simpl. destruct H1 as [H1|H1]; rewrite H1; simpl; [|reflexivity].
  apply IH; [exact H2|]. inversion Hx as [? ? H|? ? H]; subst; [congruence | exact H].
Qed.

Lemma map_result_only : forall A B (f : A -> result B) l e,
  Forall (fun x => (exists y, f x = Ok y) \/ f x = Err e) l -> Exists (fun x => f x = Err e) l ->
  map_result f l = Err e.
Proof.
  intros A B f l e Hf Hx. induction l as [|x r IH]; [inversion Hx|].
  inversion Hf as [|? ? H1 H2]; subst. simpl. destruct H1 as [(y & H1)|H1]; rewrite H1; simpl; [|reflexivity].
  rewrite IH; [reflexivity | exact H2|]. inversion Hx as [? ? H|? ? H]; subst; [congruence | exact H].
Qed.

Lemma asn1_type_reversed : forall t,
  type_ok t = true -> reversed t -> asn1_type t = Err ValueErr.
Proof.
  intros [[[b e]|]|[[b e]|]| | | | |] Ht H; simpl in H; try tauto.
  - unfold asn1_type. cbn [type_begin type_end].
    destruct (num_lt (NFloat e) (NFloat b)) eqn:E; [reflexivity|].
    apply num_lt_float in E. contradiction.
  - unfold asn1_type. cbn [type_begin type_end]. rewrite num_lt_int.
    replace (e <? b) with true by lia. reflexivity.
Qed.

Lemma process_type_reversed : forall t,
  type_ok t = true -> has_reversed t -> process_type t = Err ValueErr.
Proof.
  unfold has_reversed. induction t as [r|r| | |k len|len t IH|n]; intros Ht (s & Hs & Hr);
    cbn [subtypes] in Hs; cbn [process_type].
  1,2,3,4,5,7: destruct Hs as [<-|[]]; rewrite (asn1_type_reversed _ Ht Hr); reflexivity.
  destruct Hs as [<-|Hs]; [destruct Hr|].
  rewrite IH; [reflexivity | exact Ht | eauto].
Qed.

Lemma process_member_value_error : forall k,
  member_ok k = true -> has_reversed (m_type k) -> process_member k = Err ValueErr.
Proof.
  intros k Hk H. unfold process_member. rewrite process_type_reversed; [reflexivity | | exact H].
  apply member_ok_type. exact Hk.
Qed.

Lemma members_value_error : forall l t,
  forallb member_ok l = true -> Forall clean (flat_map member_comments l) ->
  Forall (fun k => (ranges_ok (m_type k) /\ element (m_type k) <> TNull)
                   \/ has_reversed (m_type k)) l ->
  In t (map m_type l) -> has_reversed t ->
  for_each process_member l = Err ValueErr.
Proof.
  intros l t Hok Hc Ho Ht Hr. rewrite forallb_forall in Hok.
  rewrite Forall_flat_map, Forall_forall in Hc. rewrite Forall_forall in Ho.
  apply for_each_only.
  - rewrite Forall_forall. intros k Hk. destruct (Ho k Hk) as [G|G].
    + left. apply process_member_ok; [exact (Hok k Hk)|]. split; [exact (Hc k Hk) | exact G].
    + right. apply process_member_value_error; [exact (Hok k Hk) | exact G].
  - apply in_map_iff in Ht. destruct Ht as (k & <- & Hk). apply Exists_exists. exists k.
    split; [exact Hk|]. apply process_member_value_error; [exact (Hok k Hk) | exact Hr].
Qed.

Lemma process_definition_value_error : forall d t,
  definition_ok d = true -> Forall clean (definition_comments d) -> only_reversed d ->
  In t (definition_types d) -> has_reversed t -> process_definition d = Err ValueErr.
Proof.
  intros d t Hd Hc Ho Ht Hr.
  assert (Hnv : ~ definition_valid d).
  { intros Hv. destruct (definition_valid_types d t Hv Ht) as [G _].
    destruct Hr as (s & Hs & Hr). unfold ranges_ok in G. rewrite Forall_forall in G.
    exact (reversed_not_ok s Hr (G s Hs)). }
  destruct Ho as [Ho|Ho]; [contradiction|].
  destruct d as [n c l|n c l|n c l|n t0 c]; unfold definition_ok in Hd;
    repeat (apply andb_prop in Hd; destruct Hd as [Hd ?]); cbn [process_definition definition_comments] in *.
  - apply Forall_app in Hc. destruct Hc as [Hc Hm].
    apply (check_comment_opt_ok false) in Hc. rewrite Hc. cbn [bind].
    rewrite (members_value_error l t); auto.
  - apply Forall_app in Hc. destruct Hc as [Hc Hm].
    apply (check_comment_opt_ok false) in Hc. rewrite Hc. cbn [bind].
    rewrite (members_value_error l t); auto.
  - destruct Ho.
  - rewrite process_type_reversed; [reflexivity | assumption | exact Ho].
Qed.

Lemma value_error : forall m,
  grammatical m = true -> Forall clean (module_comments m) ->
  Forall only_reversed (mod_defs m) ->
  (exists d t, In d (mod_defs m) /\ In t (definition_types d) /\ has_reversed t) ->
  parse_module m = Err ValueErr.
Proof.
  intros m Hg Hc Ho (d & t & Hd & Ht & Hr).
  unfold module_comments in Hc. rewrite !Forall_app in Hc. destruct Hc as (C1 & C2 & C3 & C4).
  unfold parse_module. apply (check_comment_opt_ok false) in C1. rewrite C1. cbn [bind].
  assert (Himp : for_each process_import (mod_imports m) = Ok tt).
  { rewrite for_each_ok. rewrite Forall_flat_map in C2.
    eapply Forall_impl; [|exact C2]. intros i Hi. apply check_comment_opt_ok. exact Hi. }
  rewrite Himp. cbn [bind]. apply (check_comment_opt_ok false) in C3. rewrite C3. cbn [bind].
  rewrite Forall_flat_map, Forall_forall in C4. rewrite Forall_forall in Ho.
  rewrite (map_result_only _ _ _ _ ValueErr); [reflexivity| |].
  - rewrite Forall_forall. intros x Hx. assert (Hok := grammatical_defs m x Hg Hx).
    destruct (Ho x Hx) as [Hv|Hbad].
    + left. apply process_definition_ok; auto.
    + assert (Hq : (exists t, In t (definition_types x) /\ has_reversed t) \/ definition_valid x).
      { destruct x as [n c l|n c l|n c l|n t0 c]; simpl in *; try tauto.
        1,2: assert (G : (exists k, In k l /\ has_reversed (m_type k))
                  \/ Forall (fun k => ranges_ok (m_type k) /\ element (m_type k) <> TNull) l)
            by (clear - Hbad; induction Hbad as [|k r Hk _ IH]; [right; constructor|];
                destruct Hk as [Hk|Hk]; [|left; exists k; simpl; auto];
                destruct IH as [(k' & Hin & Hk')|IH]; [left; exists k'; simpl; auto|];
                right; constructor; assumption);
          destruct G as [(k & Hk & Hr')|G]; [left; exists (m_type k); split; [apply in_map; exact Hk | exact Hr']
                                            | right; exact G].
        left. exists t0. auto. }
      destruct Hq as [(t' & Ht' & Hr')|Hv].
      * right. apply (process_definition_value_error x t'); auto.
      * left. apply process_definition_ok; auto.
  - apply Exists_exists. exists d. split; [exact Hd|].
    apply (process_definition_value_error d t); auto. exact (grammatical_defs m d Hg Hd).
Qed.

(** ** Undefined types: the error *)

Lemma for_each_outcome : forall A (f : A -> result unit) l e,
  (forall x, f x = Ok tt \/ f x = Err e) -> for_each f l = Ok tt \/ for_each f l = Err e.
Proof.
  intros A f l e H. induction l as [|x r IH]; [left; reflexivity|]. cbn [for_each].
  destruct (H x) as [G|G]; rewrite G; cbn [bind]; [exact IH | right; reflexivity].
Qed.

Lemma used_types_outcome : forall m,
  check_used_types_defined m = Ok tt \/ check_used_types_defined m = Err ConsistencyError.
Proof.
  intros m. unfold check_used_types_defined. apply for_each_outcome. intros d.
  apply for_each_outcome. intros k. unfold assert. destruct (mem _ _); auto.
Qed.

Lemma undefined_error : forall m,
  grammatical m = true -> Forall clean (module_comments m) ->
  Forall definition_valid (mod_defs m) -> ~ types_defined m ->
  parse_module m = Err ConsistencyError.
Proof.
  intros m Hg Hc Hd Ht.
  assert (Hacc := module_accepted_iff m Hg).
  assert (Hno : ~ exists m', parse_module m = Ok m').
  { rewrite Hacc. unfold module_valid. tauto. }
  unfold module_comments in Hc. rewrite !Forall_app in Hc. destruct Hc as (C1 & C2 & C3 & C4).
  unfold parse_module in *. apply (check_comment_opt_ok false) in C1. rewrite C1 in *. cbn [bind] in *.
  assert (Himp : for_each process_import (mod_imports m) = Ok tt).
  { rewrite for_each_ok. rewrite Forall_flat_map in C2.
    eapply Forall_impl; [|exact C2]. intros i Hi. apply check_comment_opt_ok. exact Hi. }
  rewrite Himp in *. cbn [bind] in *.
  apply (check_comment_opt_ok false) in C3. rewrite C3 in *. cbn [bind] in *.
  assert (Hdefs : exists ds, map_result process_definition (mod_defs m) = Ok ds).
  { apply map_result_exists. rewrite Forall_flat_map, Forall_forall in C4.
    rewrite Forall_forall in Hd |- *. intros d Hin. apply process_definition_ok; auto.
    exact (grammatical_defs m d Hg Hin). }
  destruct Hdefs as (ds & Hds). rewrite Hds in *. cbn [bind] in *.
  set (m' := mkmodule _ _ _ _ _) in *.
  destruct (check_used_types_defined m') as [[]|e|] eqn:E; cbn [bind] in *.
  - exfalso. apply Hno. eexists; reflexivity.
  - destruct (used_types_outcome m') as [G|G]; congruence.
  - destruct (used_types_outcome m') as [G|G]; congruence.
Qed.

(** ** Rendered comments can be read back *)

Lemma occurs_cons : forall p c s, occurs p s -> occurs p (String c s).
Proof. intros p c s (a & b & ->). exists (String c a), b. reflexivity. Qed.

Lemma no_bracket_head : forall s x c,
  ~ occurs (String c "") s -> s <> (String c x).
Proof. intros s x c H E. apply H. exists "", x. rewrite E. reflexivity. Qed.

Lemma unit_no_bracket : forall u v a b,
  all_chars unit_char u = true -> all_chars unit_char v = true ->
  (u ++ "] " ++ a = v ++ "] " ++ b)%string -> u = v /\ a = b.
Proof.
  induction u as [|c u IH]; intros [|d v] a b Hu Hv H; simpl in *.
  - split; [reflexivity | congruence].
  - injection H as <- _. exfalso. apply andb_prop in Hv. destruct Hv as [Hv _]. discriminate.
  - injection H as -> _. exfalso. apply andb_prop in Hu. destruct Hu as [Hu _]. discriminate.
  - injection H as -> H. apply andb_prop in Hu, Hv. destruct Hu as [_ Hu], Hv as [_ Hv].
    destruct (IH v a b Hu Hv H) as [-> ->]. auto.
Qed.

Lemma item_comment_readable : forall c d,
  comment_ok c = true -> comment_ok d = true -> clean c -> clean d ->
  item_comment c = item_comment d -> cm_text c = cm_text d /\ cm_unit c = cm_unit d.
Proof.
  intros [t u le] [t' u' le'] Hc Hd (Hc1 & _) (Hd1 & _) H. unfold comment_ok in *.
  unfold item_comment in H. simpl in *. apply andb_prop in Hc, Hd.
  destruct Hc as [_ Hu], Hd as [_ Hu'].
  destruct (String.eqb u "") eqn:E; destruct (String.eqb u' "") eqn:E'; simpl in H.
  - apply String.eqb_eq in E, E'. subst. auto.
  - exfalso. exact (no_bracket_head _ _ _ Hc1 H).
  - exfalso. symmetry in H. exact (no_bracket_head _ _ _ Hd1 H).
  - injection H as H. rewrite <- !string_app_assoc in H. destruct (unit_no_bracket _ _ _ _ Hu Hu' H). auto.
Qed.

Lemma posix_accepted : forall m m' n t c b e,
  grammatical m = true -> parse_module m = Ok m' ->
  In (DSimple n t c) (mod_defs m) -> posix_bounds n = Some (b, e) -> has_bounds t b e.
Proof.
  intros m m' n t c b e Hg H Hin Hp. assert (G := accepted_definitions m m' Hg H).
  rewrite Forall_forall in G. destruct (G _ Hin) as (_ & _ & G'). unfold posix_ok in G'.
  rewrite Hp in G'. exact G'.
Qed.

(** ** REAL ranges *)

Lemma between_abs : forall M E b e,
  double_le b e ->
  (double_le (DFin true M E) b /\ double_le e (DFin false M E)
   <-> abs_at_most b (qval false M E) /\ abs_at_most e (qval false M E)).
Proof.
  intros M E b e Hle.
  assert (Hs : (qval true M E == - qval false M E)%Q) by (unfold qval; ring).
  destruct b as [s1 m1 e1|[]], e as [s2 m2 e2|[]]; unfold double_le, abs_at_most in *; try tauto.
  rewrite Hs. split.
  - intros [H1 H2]. repeat split; try assumption.
    + eapply Qle_trans; eassumption.
    + eapply Qle_trans; eassumption.
  - tauto.
Qed.

Lemma real_range_type : forall b e,
  type_ok (TReal (Some (b, e))) = true ->
  asn1_type (TReal (Some (b, e))) =
  if num_lt (NFloat e) (NFloat b) then Err ValueErr
  else if num_le (NFloat FLOAT_MIN) (NFloat b) && num_le (NFloat e) (NFloat FLOAT_MAX)
  then Ok (Some A_FLOAT)
  else if num_le (NFloat DOUBLE_MIN) (NFloat b) && num_le (NFloat e) (NFloat DOUBLE_MAX)
  then Ok (Some A_DOUBLE) else Err FloatingPointErr.
Proof.
  intros b e H. unfold asn1_type. cbn [type_begin type_end type_name].
  destruct (num_lt (NFloat e) (NFloat b)); reflexivity.
Qed.

Lemma real_range_cases : forall b e,
  type_ok (TReal (Some (b, e))) = true ->
  (~ double_le (fval b) (fval e) /\ asn1_type (TReal (Some (b, e))) = Err ValueErr)
  \/ (double_le (fval b) (fval e) /\ abs_at_most (fval b) float_bound
      /\ abs_at_most (fval e) float_bound
      /\ asn1_type (TReal (Some (b, e))) = Ok (Some A_FLOAT))
  \/ (double_le (fval b) (fval e) /\ finite (fval b) /\ finite (fval e)
      /\ ~ (abs_at_most (fval b) float_bound /\ abs_at_most (fval e) float_bound)
      /\ asn1_type (TReal (Some (b, e))) = Ok (Some A_DOUBLE))
  \/ (double_le (fval b) (fval e) /\ ~ (finite (fval b) /\ finite (fval e))
      /\ asn1_type (TReal (Some (b, e))) = Err FloatingPointErr).
Proof.
  intros b e H. rewrite (real_range_type b e H).
  cbn [type_ok] in H. apply andb_prop in H. destruct H as [Hb He].
  apply andb_prop in Hb, He. destruct Hb as [Hb _], He as [He _].
  destruct (num_lt (NFloat e) (NFloat b)) eqn:El.
  { left. split; [|reflexivity]. intros G. apply num_lt_float in G. congruence. }
  apply num_lt_float in El. right.
  assert (GF : num_le (NFloat FLOAT_MIN) (NFloat b) && num_le (NFloat e) (NFloat FLOAT_MAX) = true
               <-> abs_at_most (fval b) float_bound /\ abs_at_most (fval e) float_bound).
  { rewrite andb_true_iff, !num_le_float. apply between_abs. exact El. }
  assert (GD : num_le (NFloat DOUBLE_MIN) (NFloat b) && num_le (NFloat e) (NFloat DOUBLE_MAX) = true
               <-> finite (fval b) /\ finite (fval e)).
  { rewrite andb_true_iff, !num_le_float. split.
    - intros [F1 F2]. exact (finite_between _ _ _ _ _ _ _ _ F1 El F2).
    - intros [Fb Fe]. split; apply valid_double_bounds; assumption. }
  destruct (num_le (NFloat FLOAT_MIN) (NFloat b) && num_le (NFloat e) (NFloat FLOAT_MAX)) eqn:Ef.
  { left. destruct (proj1 GF eq_refl). auto. }
  right. destruct (num_le (NFloat DOUBLE_MIN) (NFloat b) && num_le (NFloat e) (NFloat DOUBLE_MAX)) eqn:Ed.
  - left. destruct (proj1 GD eq_refl). repeat split; try assumption. intros G.
    apply GF in G. discriminate.
  - right. split; [exact El|]. split; [|reflexivity]. intros G. apply GD in G. discriminate.
Qed.
