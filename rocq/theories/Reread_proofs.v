(** * Proofs: reading telemetry files, whatever the clauses say *)
From Coq Require Import Lia List.
From Verif Require Import Base PyNum PyStr Ast Size Bundle GenCosmos Main Lib_proofs Spec_Enum Enum_proofs Spec_Grammar Spec_Num Spec_Check
  Spec_Bundle Check_proofs Bundle_proofs Accept_proofs Field_proofs Spec_Size Spec_Cosmos Cosmos_proofs Cosmos_text_proofs
  Spec_Cosmos_runs Cosmos_runs_proofs Spec_Telemetry Telemetry_proofs Spec_History Last_proofs History_proofs History_runs_proofs Spec_Reread.
Open Scope string_scope.
Open Scope list_scope.

(** ** Values are well formed *)

Definition items_ok (l : list witem) : Prop := Forall (fun i => witem_ok i = true) l.

Lemma value_ok : forall hs o v, Forall items_ok hs -> value_of hs o = Some v -> wval_ok v = true.
Proof.
  intros hs o v H E. unfold value_of in E. destruct (oc_around o) as [a|]; [|discriminate].
  assert (X : items_ok (nth a hs [])).
  { destruct (nth_in_or_default a hs []) as [I| ->]; [|constructor]. rewrite Forall_forall in H. exact (H _ I). }
  assert (Y : In v (values_for (m_key (oc_member o)) (nth a hs []))).
  { destruct (values_for _ _) as [|x [|y r]]; try discriminate. injection E as ->. left. reflexivity. }
  unfold values_for in Y. apply in_map_iff in Y. destruct Y as (i & <- & Hi). apply filter_In in Hi. destruct Hi as (Hi & _).
  unfold items_ok in X. rewrite Forall_forall in X. apply X in Hi. destruct i as [k v c]. cbn [witem_ok] in Hi.
  apply andb_prop in Hi. destruct Hi as [Hi _]. apply andb_prop in Hi. apply Hi.
Qed.

Lemma clause_ok : forall hs o, Forall items_ok hs -> items_ok (clause_of hs o).
Proof.
  intros hs o H. unfold clause_of. destruct (value_of hs o) as [[z|f|b|w]|] eqn:E; try constructor.
  apply wcomps_items. exact (value_ok _ _ _ H E).
Qed.

Lemma firstn_next : forall A (l : list A) k x, nth_error l k = Some x -> firstn (S k) l = firstn k l ++ [x].
Proof.
  intros A l. induction l as [|y l IH]; intros [|k] x E; try discriminate; cbn [nth_error] in E; [injection E as ->; reflexivity|].
  cbn [firstn app]. f_equal. exact (IH k x E).
Qed.
Lemma nth_first : forall A (l : list A) k j, (j < k)%nat -> nth_error (firstn k l) j = nth_error l j.
Proof.
  intros A l. induction l as [|y l IH]; intros [|k] [|j] L; try lia; try reflexivity. cbn [firstn nth_error]. apply IH. lia.
Qed.

Lemma handed_ok : forall os hs, ordered 0 os -> Forall (fun o => member_ok (oc_member o) = true) os -> handed_on os hs -> Forall items_ok hs.
Proof.
  intros os hs Or M (L & H).
  assert (G : forall k, Forall items_ok (firstn k hs)).
  { induction k as [|k IH]; [constructor|]. destruct (nth_error hs k) as [x|] eqn:E.
    - rewrite (firstn_next _ _ _ _ E). apply Forall_app. split; [exact IH|]. constructor; [|constructor].
      assert (N : (k < length os)%nat) by (rewrite <- L; apply nth_error_Some; congruence).
      destruct (nth_error os k) as [o|] eqn:Eo; [|apply nth_error_None in Eo; lia].
      assert (E' := H k o Eo). rewrite E in E'. apply (f_equal (fun r => match r with Some y => y | None => [] end)) in E'. cbn beta iota in E'. rewrite E'. clear E'.
      assert (C : forall o', before k o' -> items_ok (clause_of hs o')).
      { intros o' B. rewrite <- (firstn_skipn k hs). rewrite clause_local; [apply clause_ok; exact IH|]. rewrite firstn_length. rewrite L.
        replace (Nat.min k (length os)) with k by lia. exact B. }
      destruct (m_with (oc_member o)) as [w|] eqn:Ew; [|apply C; exact (Or k o Eo)].
      apply Forall_app. split.
      + apply wcomps_items. rewrite Forall_forall in M. specialize (M o (nth_error_In _ _ Eo)). unfold member_ok in M. rewrite Ew in M.
        apply andb_prop in M. apply M.
      + apply Forall_forall. intros i Hi. apply in_flat_map in Hi. destruct Hi as (o' & Ho' & Hi). apply filter_In in Ho'. destruct Ho' as (Ho' & _).
        assert (B : before k o').
        { apply In_nth_error in Ho'. destruct Ho' as (j & Ej). assert (J : (j < S k)%nat).
          { assert (X : (j < length (firstn (S k) os))%nat) by (apply nth_error_Some; intros X; rewrite X in Ej; discriminate). rewrite firstn_length in X. lia. }
          rewrite nth_first in Ej by exact J. eapply before_le; [|exact (Or j o' Ej)]. lia. }
        specialize (C o' B). unfold items_ok in C. rewrite Forall_forall in C. exact (C i Hi).
    - rewrite firstn_all2; [|apply nth_error_None in E; lia]. rewrite firstn_all2 in IH; [exact IH|]. apply nth_error_None in E. exact E. }
  rewrite <- (firstn_all hs). apply G.
Qed.

(** ** A leaf with a clause that gives it a value *)

Definition as_given (lf : leaf) (v : option wval) : leaf :=
  mkleaf (match v with
          | Some v => [mkmember "m" (TName "M") None (Some (WC None [WI (m_key (lf_member lf)) v None]))]
          | None => []
          end) (lf_member lf) (lf_values lf) (lf_kind lf) (lf_bits lf) (lf_states lf).

Lemma given_values : forall lf v, fixed_values (as_given lf v) = match v with Some v => [v] | None => [] end.
Proof.
  intros lf [v|]; [|reflexivity]. unfold fixed_values, as_given. cbn [lf_path lf_member clauses_at fold_left own_clause m_with wc_items flat_map app].
  unfold values_for. cbn [filter wi_key map]. rewrite String.eqb_refl. reflexivity.
Qed.

Lemma given_role : forall lf v r, role_of (as_given lf v) r <-> role_given v lf r.
Proof.
  intros lf v r. unfold role_of, role_given. rewrite given_values. cbn [lf_member lf_kind lf_bits as_given]. destruct v as [v|]; reflexivity.
Qed.

Lemma given_item : forall lf v t, item_of (as_given lf v) t -> item_given v lf t.
Proof.
  intros lf v t [A B C D E F G H I]. constructor; try assumption. apply given_role. exact B.
Qed.
Lemma item_back : forall lf v t, item_given v lf t -> item_of (as_given lf v) t.
Proof.
  intros lf v t [A B C D E F G H I]. constructor; try assumption. apply given_role. exact B.
Qed.

Lemma given_valid : forall lf v, valid_leaf (as_given lf v) <-> valid_given v lf.
Proof.
  intros lf v. unfold valid_leaf, valid_given. rewrite given_values. cbn [lf_member lf_kind lf_bits as_given]. destruct v as [v|]; reflexivity.
Qed.

Lemma given_one : forall lf v, (forall w, v <> Some (VWith w)) -> one_clause (as_given lf v).
Proof.
  intros lf v N. split.
  - intros p q E. destruct p as [|x p]; [split; [cbn; lia|constructor]|]. unfold as_given in E. cbn [lf_path] in E.
    destruct v as [v|]; [|discriminate]. cbn [app] in E. injection E as <- E. destruct p; [|discriminate].
    cbn. split; [lia|]. repeat constructor. intros [].
  - intros w. rewrite given_values. destruct v as [v|]; [|intros []]. intros [->|[]]. exact (N w eq_refl).
Qed.

Lemma given_shows : forall lf v e, shows lf e -> shows (as_given lf v) e.
Proof. intros lf v e []. constructor; assumption. Qed.

Lemma given_shows_value : forall lf v e, (forall w, v <> Some (VWith w)) ->
  value_given (lf_member lf) (lf_bits lf) v e -> shows_value (as_given lf v) e.
Proof.
  intros lf v e N V. unfold value_given in V. unfold shows_value. rewrite given_values. cbn [as_given lf_member lf_bits].
  change COSMOS_KEY_APID with "application-process-identifier" in V.
  assert (AP : apid_value v = Ok (te_value e) -> exists v0 z, match v with Some v => [v] | None => [] end = [v0]
      /\ z = match v0 with VInt z => z | VBool true => 1%Z | _ => 0%Z end
      /\ (forall f, v0 <> VFloat f) /\ te_value e = ("0x" ++ format_X 2 z)%string).
  { intros A. destruct v as [[z|f|b|w]|]; unfold apid_value in A; try discriminate.
    - exists (VInt z), z. repeat split; try discriminate. apply (f_equal (fun r => match r with Ok x => x | _ => "" end)) in A. symmetry. exact A.
    - exists (VBool b), (if b then 1%Z else 0%Z). split; [reflexivity|]. split; [destruct b; reflexivity|]. split; [discriminate|].
      apply (f_equal (fun r => match r with Ok x => x | _ => "" end)) in A. symmetry. exact A. }
  destruct (m_type (lf_member lf)); try exact V; (destruct (String.eqb (m_key (lf_member lf)) "application-process-identifier");
    [exact (AP V)|destruct v as [[z|f|b|w]|]; try exact V; exfalso; exact (N w eq_refl)]).
Qed.

Lemma given_path : forall lf v, member_ok (lf_member lf) = true -> (forall x, v = Some x -> wval_ok x = true) ->
  Forall (fun k => member_ok k = true) (lf_path (as_given lf v)).
Proof.
  intros lf [v|] M O; cbn [as_given lf_path]; [|constructor]. constructor; [|constructor].
  unfold member_ok in *. cbn [m_key m_type m_comment m_with]. apply andb_prop in M. destruct M as [M _]. apply andb_prop in M. destruct M as [M _].
  apply andb_prop in M. destruct M as [M _]. cbn. rewrite M, (O v eq_refl). reflexivity.
Qed.

Section Accepted.
Variables (input : list module) (bun : bundle).
Hypothesis Hg : Forall (fun m => grammatical m = true) input.
Hypothesis Ha : accepted input bun.
Notation ms := (all_modules bun).

Lemma occurrence_reads : forall hs o e lf, Forall items_ok hs -> oc_leaf o = Some lf -> lf_member lf = oc_member o -> shows lf e ->
  value_given (lf_member lf) (lf_bits lf) (value_of hs o) e -> (forall w, value_of hs o <> Some (VWith w)) ->
  member_ok (lf_member lf) = true -> Forall word (lf_states lf) -> quiet (m_comment (lf_member lf)) -> type_ok (lf_values lf) = true ->
  exists t, entry_reads e t /\ item_given (value_of hs o) lf t.
Proof.
  intros hs o e lf Hh El Em S V NW M St Q T.
  destruct (leaf_reads (as_given lf (value_of hs o)) e) as (t & T1 & T2); try assumption.
  - apply given_shows. exact S.
  - apply given_shows_value; assumption.
  - apply given_one. exact NW.
  - apply given_path; [exact M|]. intros x E. exact (value_ok _ _ _ Hh E).
  - exists t. split; [exact T1|]. apply given_item. exact T2.
Qed.

Lemma in_leaves : forall os o lf, In o os -> oc_leaf o = Some lf -> In lf (leaves_of os).
Proof. intros os o lf Ho E. unfold leaves_of. apply in_flat_map. exists o. split; [exact Ho|]. rewrite E. left. reflexivity. Qed.

Lemma message_reads : forall i m target hs msgs oss ps n, nth_error ms i = Some m -> word target -> Forall items_ok hs ->
  messages_occur ms i m n msgs oss -> packets_show m hs msgs oss ps ->
  Forall (Forall (fun o => member_ok (oc_member o) = true)) oss -> readable m msgs hs (concat oss) ->
  exists tps, packets_given m target hs msgs oss tps /\ Forall2 (packet_reads target) ps tps.
Proof.
  intros i m target hs msgs oss ps n Hm Wt Hh O. revert ps. induction O as [n|n x cm l d r os oss Ed H1 H2 IH]; intros ps SH MO (Q1 & Q2).
  { inversion SH; subst. exists []. split; constructor. }
  inversion SH as [|? cm' l' ? ? ? p ps' Hd En Ec F SH']; subst. inversion MO as [|? ? MO1 MO2]; subst.
  destruct (IH ps' SH' MO2) as (tps & A & B).
  { split; [intros y c k Hy; apply Q1; right; exact Hy|]. intros o Ho. apply Q2. cbn [concat]. apply in_or_app. right. exact Ho. }
  assert (Hdd := nth_error_In _ _ Ed).
  assert (Pl := occur_leaves _ _ _ _ _ _ _ _ _ _ H1).
  assert (St := states_words _ _ Hg Ha _ _ _ _ Pl). assert (Vo := values_ok _ _ Hg Ha _ _ _ _ Pl).
  rewrite Forall_forall in St, Vo, MO1.
  destruct (message_words _ _ Hg Ha _ _ _ _ _ Hm Hd) as (Wn & Cn).
  destruct (Q1 _ cm' l' (or_introl eq_refl) Hd) as (Qa & Qb).
  assert (I : exists its, Forall2 entry_reads (pk_entries p) its
    /\ Forall2 (fun o t => exists lf, oc_leaf o = Some lf /\ item_given (value_of hs o) lf t) (filter is_leaf os) its).
  { assert (X : forall o, In o (filter is_leaf os) -> In o os /\ is_leaf o = true) by (intros o Ho; apply filter_In; exact Ho).
    revert F X. generalize (filter is_leaf os) (pk_entries p). intros xs es F. induction F as [|o e xs es (lf & El & Em & Sh & Vg) F IHF]; intros X.
    { exists []. split; constructor. }
    destruct IHF as (its & T1 & T2); [intros o' Ho'; apply X; right; exact Ho'|].
    destruct (X o (or_introl eq_refl)) as (Ho & Lo). destruct (Q2 o) as (Qo & No); [cbn [concat]; apply in_or_app; left; exact Ho|exact Lo|].
    assert (Il := in_leaves os o lf Ho El). assert (Mo := MO1 o Ho). rewrite <- Em in Mo, Qo.
    destruct (occurrence_reads hs o e lf Hh El Em Sh Vg No Mo (St lf Il) Qo (Vo lf Il Mo)) as (t & Ta & Tb).
    exists (t :: its). split; constructor; eauto. }
  destruct I as (its & I1 & I2).
  exists (mktpacket target (pk_name p) (text_of cm') its :: tps). split; constructor; try assumption.
  - exists cm', l'. cbn. auto 10.
  - rewrite <- Ec. apply says_packet; try assumption; rewrite ?Ec; try assumption. apply comment_no_LF. exact Cn.
Qed.
End Accepted.

Lemma run_rereads : forall fuel mn msgs target input fs fs', Forall (fun m => grammatical m = true) input -> word target ->
  run fuel (GenerateCosmos mn msgs target) input fs = (fs', Ok tt) ->
  exists ms, Forall2 same_module input ms
    /\ forall i m, first_named ms i m -> mod_name m = mn ->
       exists oss hs, messages_occur ms i m 0 msgs oss /\ handed_on (concat oss) hs
       /\ (readable m msgs hs (concat oss) ->
          exists ps, packets_given m target hs msgs oss ps
          /\ forall old before, match folder_get fs (target ++ ".txt") with Some t => t | None => "" end = old ->
             ended old -> read_telemetry old = Some before ->
             exists text, folder_get fs' (target ++ ".txt") = Some text /\ ended text
               /\ read_telemetry text = Some (before ++ ps)).
Proof.
  intros fuel mn msgs target input fs fs' Hg Wt H. destruct (cosmos_run_inv _ _ _ _ _ _ _ H) as (bun & pks & Hb & Hp & ->).
  assert (Ha : accepted input bun) by (right; exact Hb).
  exists (all_modules bun). split; [apply (accepted_same _ _ Ha)|]. intros i m Fm Em.
  assert (Hm := proj1 Fm).
  assert (P : packets fuel bun i msgs [] = Ok pks).
  { destruct (cosmos_packets_inv _ _ _ _ _ Hp) as [(-> & -> & N)|(i' & m' & Fm' & Em' & P)].
    - reflexivity.
    - destruct (first_named_unique _ _ _ _ _ Fm Fm') as (-> & ->); [congruence|]. exact P. }
  assert (S := packets_sound _ _ Hg Ha _ _ _ _ _ _ Hm P).
  destruct (messages_exist bun i m msgs Hm) with (n := 0%nat) as (oss & O).
  { intros x Hx. destruct (Forall2_in_l _ _ _ _ _ _ S Hx) as (p & _ & (cm & l & ls & Hd & _ & _ & PL & _)). eauto. }
  assert (OR := messages_ordered _ _ _ _ _ _ O). destruct (handed_exists _ OR) as (hs & HH).
  exists oss, hs. split; [exact O|]. split; [exact HH|]. intros R.
  destruct (packets_occur _ _ Hg Ha _ _ _ _ _ Hm O hs [] [] (concat oss)) with (4 := state_nil (all_modules bun) hs) (5 := P) as (_ & SH).
  { cbn [app]. rewrite app_nil_r. reflexivity. }
  { reflexivity. }
  { exact HH. }
  assert (MO := messages_members _ _ Hg Ha _ _ _ _ _ Hm O).
  assert (Hh : Forall items_ok hs).
  { eapply handed_ok; [exact OR| |exact HH]. apply Forall_concat. exact MO. }
  destruct (message_reads _ _ Hg Ha _ _ target hs _ _ _ _ Hm Wt Hh O SH MO R) as (tps & A & B).
  exists tps. split; [exact A|]. intros old before Eo En Rd.
  destruct (folder_append_get (target ++ ".txt", text_of_run (map (packet_text target) pks))%string fs) as (F1 & _). cbn [fst snd] in F1.
  rewrite Eo in F1. exists (old ++ text_of_run (map (packet_text target) pks))%string. split; [exact F1|]. apply read_run; assumption.
Qed.

(** ** Valid items *)

Lemma occurrence_valid : forall hs o t lf, item_given (value_of hs o) lf t -> leaf_width lf -> (forall w, value_of hs o <> Some (VWith w)) ->
  (valid_item t <-> valid_given (value_of hs o) lf).
Proof.
  intros hs o t lf I W N. rewrite (valid_iff (as_given lf (value_of hs o)) t).
  - apply given_valid.
  - apply item_back. exact I.
  - exact W.
  - intros w. rewrite given_values. destruct (value_of hs o) as [v|]; [|intros []]. intros [->|[]]. exact (N w eq_refl).
Qed.

Lemma items_valid : forall ms i m target n msgs oss hs ps, messages_occur ms i m n msgs oss ->
  packets_given m target hs msgs oss ps -> (forall o, In o (concat oss) -> is_leaf o = true -> forall w, value_of hs o <> Some (VWith w)) ->
  Forall2 (fun os p => (Forall valid_item (p_items p) <-> Forall (valid_occurrence hs) os)) oss ps.
Proof.
  intros ms i m target n msgs oss hs ps O. revert ps. induction O as [n|n x cm l d r os oss Ed H1 H2 IH]; intros ps G N.
  { inversion G; subst. constructor. }
  inversion G as [|? ? ? ? p ps' (cm' & l' & _ & _ & _ & _ & F) G']; subst. constructor.
  - assert (Pl := occur_leaves _ _ _ _ _ _ _ _ _ _ H1). assert (W := leaf_widths _ _ _ _ _ Pl). rewrite Forall_forall in W.
    assert (X : Forall (valid_occurrence hs) os <-> Forall (valid_occurrence hs) (filter is_leaf os)).
    { rewrite !Forall_forall. split; intros X o Ho; [apply filter_In in Ho; apply X; apply Ho|].
      intros lf E. assert (L : is_leaf o = true) by (unfold is_leaf; rewrite E; reflexivity). apply (X o); [apply filter_In; auto|exact E]. }
    rewrite X. clear X.
    assert (Y : forall o, In o (filter is_leaf os) -> In o os /\ is_leaf o = true) by (intros o Ho; apply filter_In; exact Ho).
    revert F Y. generalize (filter is_leaf os) (p_items p). intros xs ts F. induction F as [|o t xs ts (lf & El & It) F IHF]; intros Y.
    { split; constructor. }
    destruct (Y o (or_introl eq_refl)) as (Ho & Lo).
    rewrite !Forall_cons_iff, IHF by (intros o' Ho'; apply Y; right; exact Ho').
    assert (V : valid_item t <-> valid_occurrence hs o).
    { rewrite (occurrence_valid hs o t lf It (W lf (in_leaves os o lf Ho El))).
      - unfold valid_occurrence. split; [intros V lf' E; congruence|intros V; apply V; exact El].
      - apply N; [|exact Lo]. cbn [concat]. apply in_or_app. left. exact Ho. }
    rewrite V. reflexivity.
  - apply IH; [exact G'|]. intros o Ho. apply N. cbn [concat]. apply in_or_app. right. exact Ho.
Qed.
