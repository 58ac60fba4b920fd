(** * Proofs: message IDs and defines of the cfs command *)
From Coq Require Import Permutation.
From Verif Require Import Base PyNum PyStr Ast Processor Bundle Sorter CCommon GenCfs Main Spec_Grammar Spec_Text Spec_Cfs
  Spec_Gen Lib_proofs Str_proofs Name_proofs Check_proofs Field_proofs Gen_proofs Cdata_proofs Text_proofs Files_proofs Run_proofs Spec_Bundle Bundle_proofs Accept_proofs Disk_proofs.
Open Scope string_scope.
Open Scope list_scope.

(** ** The message ID *)

Open Scope Z_scope.

Lemma as_int_ok : forall v z, as_int v = Ok z <-> numeric v = Some z.
Proof. intros v z. destruct v; simpl; split; congruence. Qed.

Definition weight (k : string) : Z :=
  if String.eqb k KEY_VERSION then 13 else if String.eqb k KEY_TYPE then 12
  else if String.eqb k KEY_SEC_HEADER_FLAG then 11 else 0.

Lemma ident_step : forall k v cm r id x, ident_msg_id (WI k v cm :: r) id = Ok x <->
  In k ident_keys /\ exists z, numeric v = Some z /\ ident_msg_id r (Z.lor id (Z.shiftl z (weight k))) = Ok x.
Proof.
  intros k v cm r id x. cbn [ident_msg_id]. unfold weight.
  change ident_keys with [KEY_VERSION; KEY_TYPE; KEY_SEC_HEADER_FLAG; KEY_APID].
  assert (G : forall n, bind (bind (as_int v) (fun z => Ok (Z.lor id (Z.shiftl z n)))) (fun id => ident_msg_id r id) = Ok x
    <-> exists z, numeric v = Some z /\ ident_msg_id r (Z.lor id (Z.shiftl z n)) = Ok x).
  { intros n. rewrite bind_ok. split.
    - intros (a & H & E). apply bind_ok in H. destruct H as (z & Hz & H). injection H as <-.
      apply as_int_ok in Hz. eauto.
    - intros (z & Hz & E). apply as_int_ok in Hz. rewrite Hz. simpl. eauto. }
  destruct (String.eqb_spec k KEY_VERSION) as [->|N1]; [rewrite G; cbn [In]; tauto|].
  destruct (String.eqb_spec k KEY_TYPE) as [->|N2]; [rewrite G; cbn [In]; tauto|].
  destruct (String.eqb_spec k KEY_SEC_HEADER_FLAG) as [->|N3]; [rewrite G; cbn [In]; tauto|].
  destruct (String.eqb_spec k KEY_APID) as [->|N4]; [rewrite G; cbn [In]; tauto|].
  simpl. split; [discriminate|]. intros (H & _). destruct H as [H|[H|[H|[H|[]]]]]; congruence.
Qed.

Definition given_or (l : list witem) : Z :=
  Z.lor (Z.shiftl (given KEY_VERSION l) 13) (Z.lor (Z.shiftl (given KEY_TYPE l) 12)
    (Z.lor (Z.shiftl (given KEY_SEC_HEADER_FLAG l) 11) (Z.shiftl (given KEY_APID l) 0))).

Lemma given_cons : forall k k' v cm r, given k (WI k' v cm :: r) =
  if String.eqb k' k then match numeric v with Some z => z | None => 0 end else given k r.
Proof. intros. unfold given. simpl. destruct (String.eqb k' k); reflexivity. Qed.

Lemma given_fresh : forall k r, ~ In k (map wi_key r) -> given k r = 0.
Proof.
  intros k r H. unfold given. destruct (find _ r) as [i|] eqn:E; [|reflexivity].
  apply find_some in E. destruct E as (Hi & E). apply String.eqb_eq in E. exfalso. apply H. rewrite <- E.
  apply in_map. exact Hi.
Qed.

Ltac lor_bits := apply Z.bits_inj'; intros ? ?; rewrite ?Z.lor_spec, ?Z.bits_0;
  repeat match goal with |- context [Z.testbit ?a ?b] => destruct (Z.testbit a b) end; reflexivity.

Lemma ident_given : forall l id x, NoDup (map wi_key l) -> ident_msg_id l id = Ok x -> x = Z.lor id (given_or l).
Proof.
  induction l as [|[k v cm] r IH]; intros id x N H.
  - cbn [ident_msg_id] in H. injection H as <-. change (given_or []) with 0. symmetry. apply Z.lor_0_r.
  - apply ident_step in H. destruct H as (Hk & z & Hz & H). simpl in N. inversion N as [|? ? N1 N2]; subst.
    apply (IH _ _ N2) in H. subst x. unfold given_or. rewrite !given_cons, Hz.
    assert (F := given_fresh _ _ N1). unfold weight.
    change ident_keys with [KEY_VERSION; KEY_TYPE; KEY_SEC_HEADER_FLAG; KEY_APID] in Hk.
    destruct Hk as [<-|[<-|[<-|[<-|[]]]]]; cbn [String.eqb Ascii.eqb Bool.eqb KEY_VERSION KEY_TYPE KEY_SEC_HEADER_FLAG KEY_APID];
      rewrite F, Z.shiftl_0_l; lor_bits.
Qed.

(** Any clause. *)
Lemma weight_shift : forall k, weight k = shift_of k.
Proof. reflexivity. Qed.

Lemma ident_bits : forall l id x, ident_msg_id l id = Ok x -> forall i, 0 <= i ->
  (Z.testbit x i = true <-> Z.testbit id i = true \/ exists j n, In j l /\ numeric (wi_value j) = Some n /\ Z.testbit n (i - shift_of (wi_key j)) = true).
Proof.
  induction l as [|[k v cm] r IH]; intros id x H i Hi.
  - cbn [ident_msg_id] in H. injection H as <-. split; [auto|]. intros [A|(j & n & [] & _)]. exact A.
  - apply ident_step in H. destruct H as (Hk & z & Hz & H). rewrite (IH _ _ H i Hi).
    rewrite Z.lor_spec, Z.shiftl_spec, weight_shift, Bool.orb_true_iff by exact Hi. split.
    + intros [[A|A]|(j & n & J & N & B)]; [auto| |right; exists j, n; split; [right; exact J|auto]].
      right. exists (WI k v cm), z. split; [left; reflexivity|]. auto.
    + intros [A|(j & n & [<-|J] & N & B)]; [auto| |right; eauto]. cbn [wi_value wi_key] in N, B. rewrite Hz in N. injection N as <-. auto.
Qed.

Lemma primary_bits : forall l id x, primary_msg_id l id = Ok x -> forall i, 0 <= i ->
  (Z.testbit x i = true <-> Z.testbit id i = true \/ exists k w' c j n, In (WI k (VWith w') c) l /\ In j (wc_items w')
     /\ numeric (wi_value j) = Some n /\ Z.testbit n (i - shift_of (wi_key j)) = true).
Proof.
  induction l as [|[k v cm] r IH]; intros id x H i Hi.
  - cbn [primary_msg_id] in H. injection H as <-. split; [auto|]. intros [A|(k & w & c & j & n & [] & _)]. exact A.
  - cbn [primary_msg_id] in H. apply bind_ok in H. destruct H as (id' & H1 & H). destruct (String.eqb k KEY_IDENT); [|discriminate].
    destruct v as [z|f|b|w]; try discriminate. rewrite (IH _ _ H i Hi), (ident_bits _ _ _ H1 i Hi). split.
    + intros [[A|(j & n & J & N & B)]|(k' & w' & c & j & n & K & X)]; [auto| |right; exists k', w', c, j, n; split; [right; exact K|exact X]].
      right. exists k, w, cm, j, n. split; [left; reflexivity|]. auto.
    + intros [A|(k' & w' & c & j & n & [K|K] & X)]; [auto| |right; exists k', w', c, j, n; auto].
      injection K as <- <- <-. left. right. exists j, n. exact X.
Qed.

Lemma primary_number : forall w z, primary_msg_id (wc_items w) 0 = Ok z -> header_number w z.
Proof.
  intros w z H i Hi. rewrite (primary_bits _ _ _ H i Hi), Z.bits_0. split; [intros [A|A]; [discriminate|exact A]|auto].
Qed.

Lemma lor_add : forall a b n, 0 <= n -> 0 <= b < 2 ^ n -> Z.lor (Z.shiftl a n) b = a * 2 ^ n + b.
Proof.
  intros a b n Hn Hb. rewrite Z.shiftl_mul_pow2 by lia.
  assert (L : Z.land (a * 2 ^ n) b = 0).
  { apply Z.bits_inj'. intros i Hi. rewrite Z.land_spec, Z.bits_0. destruct (Z.lt_ge_cases i n) as [Hl|Hl].
    - rewrite Z.mul_pow2_bits_low by lia. reflexivity.
    - rewrite <- (Z.mod_small b (2 ^ n)) by lia. rewrite Z.mod_pow2_bits_high by lia. apply andb_false_r. }
  rewrite <- Z.lxor_lor by exact L. symmetry. apply Z.add_nocarry_lxor. exact L.
Qed.

Lemma given_or_id : forall l, fits (identification l) -> given_or l = message_id (identification l).
Proof.
  intros l (H1 & H2 & H3 & H4). unfold given_or, message_id, identification in *. cbn [version is_cmd sec_hdr apid] in *.
  change (2 ^ 3) with 8 in *. change (2 ^ 11) with 2048 in *.
  rewrite Z.shiftl_0_r. rewrite (lor_add _ (given KEY_APID l) 11) by (unfold KEY_APID; lia).
  rewrite (lor_add (given KEY_TYPE l) _ 12) by (unfold KEY_SEC_HEADER_FLAG, KEY_APID; lia).
  rewrite (lor_add (given KEY_VERSION l) _ 13) by (unfold KEY_TYPE, KEY_SEC_HEADER_FLAG, KEY_APID; lia).
  unfold KEY_VERSION, KEY_TYPE, KEY_SEC_HEADER_FLAG, KEY_APID. lia.
Qed.

Lemma message_id_range : forall i, fits i -> 0 <= message_id i < 2 ^ 16.
Proof.
  intros i (H1 & H2 & H3 & H4). unfold message_id. change (2 ^ 3) with 8 in *. change (2 ^ 11) with 2048 in *.
  change (2 ^ 12) with 4096. change (2 ^ 13) with 8192. change (2 ^ 16) with 65536. lia.
Qed.

Lemma fields_message_id : forall i, fits i -> fields_of (message_id i) = i.
Proof.
  intros [a b c d] (H1 & H2 & H3 & H4). unfold fields_of, message_id. cbn [version is_cmd sec_hdr apid] in *.
  change (2 ^ 3) with 8 in *. change (2 ^ 11) with 2048 in *. change (2 ^ 12) with 4096. change (2 ^ 13) with 8192.
  f_equal.
  - symmetry. apply (Z.div_unique_pos _ _ _ (b * 4096 + c * 2048 + d)); lia.
  - rewrite <- (Z.div_unique_pos (a * 8192 + b * 4096 + c * 2048 + d) 4096 (2 * a + b) (c * 2048 + d)); [|lia|lia].
    symmetry. apply (Z.mod_unique_pos _ _ a); lia.
  - rewrite <- (Z.div_unique_pos (a * 8192 + b * 4096 + c * 2048 + d) 2048 (4 * a + 2 * b + c) d); [|lia|lia].
    symmetry. apply (Z.mod_unique_pos _ _ (2 * a + b)); lia.
  - symmetry. apply (Z.mod_unique_pos _ _ (4 * a + 2 * b + c)); lia.
Qed.

Lemma message_id_inj : forall i j, fits i -> fits j -> message_id i = message_id j -> i = j.
Proof. intros i j Hi Hj H. rewrite <- (fields_message_id i Hi), <- (fields_message_id j Hj), H. reflexivity. Qed.

Open Scope nat_scope.

(** ** Defines of a clause *)

Lemma cfs_defines_eq : forall n c l, cfs_defines n (WC c l) =
  (let* dss := map_result
     (fun i => match i with WI k v _ =>
        match v with
        | VWith w' =>
            if String.eqb k KEY_PRIMARY then
              let* id := primary_msg_id (wc_items w') 0 in
              Ok [mkdefine (upper n ++ "_MID") ("(0x" ++ format_X 4 id ++ ")") false]
            else cfs_defines n w'
        | _ => Ok [mkdefine (upper (n ++ "_" ++ c_name k)) ("(" ++ leaf_value v ++ ")") true]
        end
      end) l in Ok (concat dss)).
Proof.
  intros n c. induction l as [|[k v cm] r IH]; [reflexivity|].
  cbn [map_result]. cbn [cfs_defines] in IH |- *.
  match goal with |- bind ?a _ = _ => destruct a as [ds| |]; [|reflexivity|reflexivity] end.
  cbn [bind]. rewrite IH. destruct (map_result _ r); reflexivity.
Qed.

Lemma str_map_app : forall f a b, str_map f (a ++ b) = (str_map f a ++ str_map f b)%string.
Proof. intros f a b. induction a as [|c a IH]; simpl; [reflexivity|]. rewrite IH. reflexivity. Qed.

Lemma upper_app : forall a b, upper (a ++ b) = (upper a ++ upper b)%string.
Proof. intros. apply str_map_app. Qed.

Lemma primary_single : forall w items id, header_of w items -> primary_msg_id (wc_items w) 0 = Ok id ->
  ident_msg_id items 0 = Ok id.
Proof.
  intros w items id (c1 & c2 & c3 & ->) H. cbn [wc_items primary_msg_id] in H.
  change (String.eqb "packet-identification" KEY_IDENT) with true in H. cbn [wc_items] in H.
  destruct (ident_msg_id items 0); simpl in H; congruence.
Qed.

Lemma cfs_defines_spec : forall n w ds, cfs_defines (c_name n) w = Ok ds -> Forall2 (defines n) (clause_entries w) ds.
Proof.
  intros n. induction w as [c l IH] using clause_ind. intros ds H. rewrite cfs_defines_eq in H.
  apply bind_ok in H. destruct H as (dss & H & E). injection E as <-. apply map_result_ok in H.
  cbn [clause_entries]. induction H as [|[k v cm] ds l dss H F IHl]; [constructor|]. cbn [flat_map concat].
  apply Forall2_app; [|apply IHl; intros k' w' cm' Hi; apply (IH k' w' cm'); right; exact Hi].
  clear IHl F. destruct v as [z|f|b|w].
  - injection H as <-. constructor; [|constructor]. split; [rewrite !upper_app; reflexivity|].
    split; [reflexivity|]. eexists; split; [reflexivity|]. apply decimal_str_of_Z.
  - injection H as <-. constructor; [|constructor]. split; [rewrite !upper_app; reflexivity|].
    split; [reflexivity|]. eexists; split; [reflexivity|]. reflexivity.
  - injection H as <-. constructor; [|constructor]. split; [rewrite !upper_app; reflexivity|].
    split; [reflexivity|]. eexists; split; [reflexivity|]. reflexivity.
  - change "primary" with KEY_PRIMARY. destruct (String.eqb k KEY_PRIMARY).
    + apply bind_ok in H. destruct H as (id & Hid & H). injection H as <-. constructor; [|constructor].
      split; [reflexivity|]. split; [reflexivity|]. eexists; split; [reflexivity|].
      split; [exists id; split; [apply primary_number; exact Hid|apply hexadecimal_format]|]. intros items Hh N Hf.
      apply (primary_single _ _ _ Hh) in Hid. apply (ident_given _ _ _ N) in Hid. rewrite Z.lor_0_l, given_or_id in Hid by exact Hf.
      subst id. assert (R := message_id_range _ Hf). split; [|apply read_format_X; lia].
      apply format_X_length; [|lia]. exact R.
    + apply (IH k w cm); [left; reflexivity|exact H].
Qed.

(** Which clauses can be turned into defines. *)
Lemma ident_ok_iff : forall l id, (exists x, ident_msg_id l id = Ok x) <->
  forall j, In j l -> In (wi_key j) ident_keys /\ numeric (wi_value j) <> None.
Proof.
  induction l as [|[k v cm] r IH]; intros id.
  - split; [intros _ j []|]. intros _. exists id. reflexivity.
  - split.
    + intros (x & H). apply ident_step in H. destruct H as (Hk & z & Hz & H).
      intros j [<-|Hj]; [split; [exact Hk|simpl; congruence]|]. eapply IH; eauto.
    + intros H. destruct (H _ (or_introl eq_refl)) as (Hk & Hv). simpl in Hk, Hv.
      destruct (numeric v) as [z|] eqn:E; [|congruence].
      destruct (proj2 (IH (Z.lor id (Z.shiftl z (weight k)))%Z)) as (x & Hx).
      { intros j Hj. apply H. right. exact Hj. }
      exists x. apply ident_step. eauto.
Qed.

Lemma primary_ok_iff : forall l id, (exists x, primary_msg_id l id = Ok x) <->
  forall i, In i l -> wi_key i = "packet-identification"
      /\ exists w', wi_value i = VWith w'
         /\ forall j, In j (wc_items w') -> In (wi_key j) ident_keys /\ numeric (wi_value j) <> None.
Proof.
  induction l as [|[k v cm] r IH]; intros id.
  - split; [intros _ i []|]. intros _. exists id. reflexivity.
  - cbn [primary_msg_id]. split.
    + intros (x & H). apply bind_ok in H. destruct H as (y & Hy & H).
      destruct (String.eqb_spec k KEY_IDENT) as [->|]; [|discriminate].
      destruct v as [| | |w]; try discriminate.
      intros i [<-|Hi]; [|eapply IH; eauto]. split; [reflexivity|]. exists w. split; [reflexivity|].
      eapply ident_ok_iff; eauto.
    + intros H. destruct (H _ (or_introl eq_refl)) as (Hk & w' & Hv & Hw). simpl in Hk, Hv. subst k v.
      change (String.eqb "packet-identification" KEY_IDENT) with true. cbv iota.
      destruct (proj2 (ident_ok_iff (wc_items w') id) Hw) as (y & ->). cbn [bind]. apply IH.
      intros i Hi. apply H. right. exact Hi.
Qed.

Lemma cfs_defines_ok_iff : forall n w, (exists ds, cfs_defines n w = Ok ds) <-> Forall encodable (clause_entries w).
Proof.
  intros n. induction w as [c l IH] using clause_ind. rewrite cfs_defines_eq. cbn [clause_entries].
  assert (G : forall f (l : list witem), (exists ds, (let* dss := map_result f l in Ok (concat dss)) = Ok ds)
     <-> Forall (fun i => exists ds : list cdefine, f i = Ok ds) l).
  { clear. intros f l. induction l as [|i r IH]; [split; [constructor|intros _; exists []; reflexivity]|].
    cbn [map_result]. rewrite Forall_cons_iff, <- IH. split.
    - intros (ds & H). apply bind_ok in H. destruct H as (dss & H & _). apply bind_ok in H. destruct H as (d & Hd & H).
      apply bind_ok in H. destruct H as (q & Hq & _). split; [eauto|]. rewrite Hq. simpl. eauto.
    - intros ((d & Hd) & ds & H). apply bind_ok in H. destruct H as (dss & H & _). rewrite Hd. simpl. rewrite H. simpl. eauto. }
  rewrite G. clear G. induction l as [|[k v cm] r IHl]; [split; constructor|]. cbn [flat_map].
  rewrite Forall_cons_iff, Forall_app, IHl by (intros k' w' cm' Hi; apply (IH k' w' cm'); right; exact Hi).
  match goal with |- ?A /\ ?C <-> ?B /\ ?C => assert (E : A <-> B); [|tauto] end.
  destruct v as [z|f|b|w]; try (split; [intros _; repeat constructor|intros _; eexists; reflexivity]).
  change "primary" with KEY_PRIMARY. destruct (String.eqb k KEY_PRIMARY).
  - rewrite Forall_cons_iff. cbn [encodable]. rewrite <- primary_ok_iff. split.
    + intros (ds & H). apply bind_ok in H. destruct H as (id & H & _). split; [eauto|constructor].
    + intros ((id & ->) & _). simpl. eauto.
  - apply (IH k w cm). left. reflexivity.
Qed.

(** ** Defines of a module *)

Lemma clauses_entries : forall wch d cs ds,
  (forall n k c, wch n k = Ok c -> cfs_with_components n k = Ok c) ->
  handled wch d cs -> flat_map cd_defines cs = ds ->
  Forall2 (fun ne x => defines (fst ne) (snd ne) x) (def_entries d) ds.
Proof.
  intros wch d cs ds Hw F <-. destruct d as [n c l|n c l|n c l|n t c]; unfold handled in F; cbn [clauses_of] in F;
    try (inversion F; constructor). cbn [def_entries def_name] in *.
  remember (filter has_clause l) as fl eqn:Efl.
  assert (E : flat_map member_entries l = flat_map member_entries fl).
  { subst fl. clear. induction l as [|k l IH]; [reflexivity|]. simpl. unfold has_clause at 1, member_entries at 1.
    destruct (m_with k) eqn:E; [|exact IH]. simpl. unfold member_entries at 2. rewrite E, IH. reflexivity. }
  rewrite E. assert (C : Forall (fun k => m_with k <> None) fl).
  { subst fl. apply Forall_forall. intros k Hk. apply filter_In in Hk. destruct Hk as (_ & Hk). unfold has_clause in Hk.
    destruct (m_with k); congruence. }
  clear Efl E. induction F as [|k x fl cs H F IH]; [constructor|]. inversion C as [|? ? C1 C2]; subst.
  cbn [flat_map]. rewrite map_app. apply Forall2_app; [|apply IH; exact C2].
  apply Hw in H. unfold cfs_with_components in H. unfold member_entries. destruct (m_with k) as [w|]; [|congruence].
  apply bind_ok in H. destruct H as (ds & H & E). injection E as <-. apply cfs_defines_spec in H. cbn [cd_defines].
  clear - H. induction H; simpl; constructor; auto.
Qed.

Lemma cfs_module_defines : forall fuel b bm c, cfs_cdata fuel b bm = Ok c ->
  exists order, Permutation order (mod_defs (bm_mod bm))
    /\ Forall2 (fun ne d => defines (fst ne) (snd ne) d) (flat_map def_entries order) (cd_defines c).
Proof.
  intros fuel b bm c H. unfold cfs_cdata in H. apply module_collects in H; [|apply cfs_wch_includes].
  destruct H as (sorted & css & iss & Hs & F & -> & _). exists sorted. split; [eapply sorted_perm; exact Hs|].
  clear Hs. induction F as [|d cs sorted css H F IH]; [constructor|]. cbn [flat_map concat].
  rewrite flat_map_app. apply Forall2_app; [|exact IH]. eapply clauses_entries; [|exact H|reflexivity]. auto.
Qed.

(** ** Names of defines *)

Lemma define_name_map : forall n k, is_name_capital n = true -> is_name_lower k = true ->
  (upper (c_name n) ++ "_" ++ upper (c_name k))%string = str_map up_us (n ++ "-" ++ k).
Proof.
  intros n k Hn Hk. rewrite !c_name_eq by (first [apply capital_name; assumption|apply lower_name; assumption]).
  unfold upper. rewrite !str_map_comp, !str_map_app. reflexivity.
Qed.

Lemma define_chars : forall n k, is_name_capital n = true -> is_name_lower k = true ->
  exists c r, (n ++ "-" ++ k)%string = String c r /\ is_upper c = true /\ all_chars nchar r = true.
Proof.
  intros n k Hn Hk. apply capital_chars in Hn. apply lower_chars in Hk.
  destruct Hn as (c & r & -> & Hc & Hr), Hk as (d & s & -> & Hd & Hs).
  exists c, (r ++ "-" ++ String d s)%string. split; [reflexivity|]. split; [exact Hc|].
  assert (A : forall a b, all_chars nchar (a ++ b) = all_chars nchar a && all_chars nchar b).
  { clear. induction a as [|x a IH]; intros b; simpl; [reflexivity|]. rewrite IH. apply andb_assoc. }
  rewrite A, Hr. simpl. unfold nchar at 1, name_char. rewrite Hd, Hs. reflexivity.
Qed.

Lemma define_name_inj : forall n k n' k', is_name_capital n = true -> is_name_lower k = true ->
  is_name_capital n' = true -> is_name_lower k' = true ->
  ((upper (c_name n) ++ "_" ++ upper (c_name k))%string = (upper (c_name n') ++ "_" ++ upper (c_name k'))%string
   <-> (n ++ "-" ++ k)%string = (n' ++ "-" ++ k')%string).
Proof.
  intros n k n' k' Hn Hk Hn' Hk'. rewrite !define_name_map by assumption. split; [|intros ->; reflexivity].
  destruct (define_chars n k Hn Hk) as (c & r & -> & Hc & Hr).
  destruct (define_chars n' k' Hn' Hk') as (c' & r' & -> & Hc' & Hr'). simpl. intros H. injection H as H1 H2.
  assert (U : forall x, is_upper x = true -> up_us x = x).
  { intros x Hx. unfold up_us. rewrite us_upper by exact Hx. unfold upper_char. apply upper_codes in Hx.
    replace (is_lower x) with false; [reflexivity|]. unfold is_lower. lia. }
  rewrite !U in H1 by assumption. subst c'. f_equal. exact (str_map_inj nchar up_us up_us_inj _ _ Hr Hr' H2).
Qed.

Lemma wcomps_ok_items : forall w, wcomps_ok w = true -> Forall (fun i => witem_ok i = true) (wc_items w).
Proof.
  intros [c l] H. simpl in H. apply andb_prop in H. destruct H as (_ & H). simpl.
  induction l as [|i l IH]; constructor; apply andb_prop in H; [apply H|]. apply IH. apply H.
Qed.

Lemma entry_key_lower : forall w, wcomps_ok w = true -> Forall (fun e => is_name_lower (entry_key e) = true) (clause_entries w).
Proof.
  induction w as [c l IH] using clause_ind. intros H. apply wcomps_ok_items in H. cbn [wc_items clause_entries] in *.
  induction H as [|[k v cm] l Hi F IHl]; [constructor|]. cbn [flat_map]. apply Forall_app. split.
  - simpl in Hi. apply andb_prop in Hi. destruct Hi as (Hi & _). apply andb_prop in Hi. destruct Hi as (Hk & Hv).
    destruct v as [z|f|b|w]; try (constructor; [exact Hk|constructor]).
    destruct (String.eqb k "primary"); [constructor; [reflexivity|constructor]|].
    apply (IH k w cm); [left; reflexivity|exact Hv].
  - apply IHl. intros k' w' cm' Hin. apply (IH k' w' cm'). right. exact Hin.
Qed.

Lemma def_entries_names : forall d, definition_ok d = true ->
  Forall (fun ne => is_name_capital (fst ne) = true /\ is_name_lower (entry_key (snd ne)) = true) (def_entries d).
Proof.
  intros d H. destruct d as [n c l|n c l|n c l|n t c]; try constructor. cbn [def_entries]. simpl in H.
  apply andb_prop in H. destruct H as (H & Hl). apply andb_prop in H. destruct H as (H & _). apply andb_prop in H. destruct H as (Hn & _).
  apply Forall_forall. intros [n' e] Hx. apply in_map_iff in Hx. destruct Hx as (e' & E & Hx). injection E as <- <-.
  simpl. split; [exact Hn|]. apply in_flat_map in Hx. destruct Hx as (k & Hk & Hx). unfold member_entries in Hx.
  rewrite forallb_forall in Hl. specialize (Hl _ Hk). unfold member_ok in Hl. apply andb_prop in Hl. destruct Hl as (_ & Hl).
  destruct (m_with k) as [w|]; [|destruct Hx]. apply entry_key_lower in Hl. rewrite Forall_forall in Hl. apply Hl. exact Hx.
Qed.

Lemma NoDup_Forall2_iff : forall A B C D (f : A -> C) (g : B -> D) l l',
  Forall2 (fun a b => True) l l' ->
  (forall i j a a' b b', nth_error l i = Some a -> nth_error l j = Some a' -> nth_error l' i = Some b -> nth_error l' j = Some b' ->
     (f a = f a' <-> g b = g b')) -> (NoDup (map f l) <-> NoDup (map g l')).
Proof.
  intros A B C D f g l l' F H. rewrite !NoDup_nth_error, !map_length. apply Forall2_length in F.
  assert (S : forall i, (i < length l) -> exists a b, nth_error l i = Some a /\ nth_error l' i = Some b).
  { intros i Hi. destruct (nth_error l i) as [a|] eqn:E; [|apply nth_error_None in E; lia].
    destruct (nth_error l' i) as [b|] eqn:E'; [|apply nth_error_None in E'; lia]. eauto. }
  split; intros G i j Hi E; apply G; try lia; rewrite ?nth_error_map in *.
  - destruct (S i ltac:(lia)) as (a & b & E1 & E2). rewrite E2 in E. rewrite E1. simpl in *.
    destruct (nth_error l' j) as [b'|] eqn:E4; [|discriminate].
    destruct (S j) as (a' & b2 & E3 & E5); [rewrite F; apply nth_error_Some; congruence|]. rewrite E3. simpl. f_equal.
    apply (H i j a a' b b'); auto. simpl in E. congruence.
  - destruct (S i ltac:(lia)) as (a & b & E1 & E2). rewrite E1 in E. rewrite E2. simpl in *.
    destruct (nth_error l j) as [a'|] eqn:E3; [|discriminate].
    destruct (S j) as (a2 & b' & E4 & E5); [apply nth_error_Some; congruence|]. rewrite E5. simpl. f_equal.
    apply (H i j a a' b b'); auto. simpl in E. congruence.
Qed.

Lemma Forall2_nth : forall A B (R : A -> B -> Prop) l l' i a b, Forall2 R l l' ->
  nth_error l i = Some a -> nth_error l' i = Some b -> R a b.
Proof.
  intros A B R l l' i a b F. revert i. induction F as [|x y l l' H F IH]; intros [|i] Ha Hb; simpl in *; try discriminate.
  - congruence.
  - eapply IH; eauto.
Qed.

Lemma define_names : forall order ds, Forall (fun d => definition_ok d = true) order ->
  Forall2 (fun ne d => defines (fst ne) (snd ne) d) (flat_map def_entries order) ds ->
  (NoDup (map df_name ds) <-> NoDup (map (fun ne => fst ne ++ "-" ++ entry_key (snd ne))%string (flat_map def_entries order))).
Proof.
  intros order ds Hok F. symmetry. apply NoDup_Forall2_iff.
  - revert F. apply Forall2_impl. auto.
  - intros i j [n e] [n' e'] d d' H1 H2 H3 H4.
    destruct (Forall2_nth _ _ _ _ _ _ _ _ F H1 H3) as (N1 & _). destruct (Forall2_nth _ _ _ _ _ _ _ _ F H2 H4) as (N2 & _).
    simpl in *. rewrite N1, N2. symmetry.
    assert (K : Forall (fun ne => is_name_capital (fst ne) = true /\ is_name_lower (entry_key (snd ne)) = true) (flat_map def_entries order)).
    { clear - Hok. induction Hok as [|d l H _ IH]; [constructor|]. simpl. apply Forall_app. split; [apply def_entries_names; exact H|exact IH]. }
    rewrite Forall_forall in K. apply nth_error_In in H1, H2.
    destruct (K _ H1) as (A1 & A2). destruct (K _ H2) as (B1 & B2). apply define_name_inj; assumption.
Qed.

(** ** The msgids header in the output folder *)

Lemma same_entries : forall d d', same_definition d d' -> def_entries d' = def_entries d.
Proof.
  intros d d' H. destruct d; simpl in H; try (subst; reflexivity). destruct H as (l' & -> & _). reflexivity.
Qed.

Lemma Forall2_flip : forall A B (R : A -> B -> Prop) l l', Forall2 R l l' -> Forall2 (fun x y => R y x) l' l.
Proof. intros A B R l l' F. induction F; constructor; assumption. Qed.

Lemma order_of_input : forall m m' order', same_module m m' -> Permutation order' (mod_defs m') ->
  exists order, Permutation order (mod_defs m) /\ Forall2 same_definition order order'.
Proof.
  intros m m' order' (_ & _ & _ & F) P.
  destruct (Permutation_Forall2 (Permutation_sym P) (Forall2_flip _ _ _ _ _ F)) as (order & P' & F').
  exists order. split; [symmetry; exact P'|]. apply Forall2_flip in F'. exact F'.
Qed.

Lemma concat_lines : forall A (f : A -> string) l, concat_map_str f l = String.concat "" (map f l).
Proof. reflexivity. Qed.

Lemma concat_map_str_cons : forall A (f : A -> string) x l, concat_map_str f (x :: l) = (f x ++ concat_map_str f l)%string.
Proof.
  intros A f x l. unfold concat_map_str. simpl. destruct (map f l) eqn:E; [|reflexivity].
  simpl. rewrite string_app_nil. reflexivity.
Qed.

Lemma msgids_written : forall names fuel input fs fs' m,
  Forall (fun m => grammatical m = true) input -> run fuel (GenerateCfs names) input fs = (fs', Ok tt) -> In m input ->
  exists order ds g, Permutation order (mod_defs m)
    /\ Forall2 (fun ne d => defines (fst ne) (snd ne) d) (flat_map def_entries order) ds
    /\ folder_get fs' (c_name (mod_name m) ++ "_msgids.h") =
       Some ("#ifndef " ++ g ++ NL ++ "#define " ++ g ++ NL ++ NL
             ++ "/*" ++ NL ++ "This file was autogenerated from ASN.1 model." ++ NL ++ "*/" ++ NL ++ NL
             ++ String.concat "" (map define_line ds) ++ (match ds with [] => "" | _ => NL end)
             ++ "#endif // " ++ g ++ NL)%string
    /\ g = guard_symbol (msgids_filename (mod_name m) ++ ".h").
Proof.
  intros names fuel input fs fs' m Hg H Hm.
  destruct (run_input_written names (GenerateCfs names) fuel input fs fs' m) as (b & bm & fl & C & Hbm & S & Hfl & R);
    [left; reflexivity|assumption|assumption|assumption|].
  cbn [module_files] in Hfl. apply bind_ok in Hfl. destruct Hfl as (c & Hc & E). injection E as <-.
  destruct (cfs_module_defines _ _ _ _ Hc) as (order' & P & F).
  destruct (order_of_input _ _ _ S P) as (order & P' & F'). exists order, (cd_defines c), (guard_symbol (msgids_filename (bm_name bm) ++ ".h")).
  split; [exact P'|]. split; [|split; [|assert (Sn : bm_name bm = mod_name m) by apply S; rewrite Sn; reflexivity]].
  - assert (E : flat_map def_entries order' = flat_map def_entries order).
    { clear - F'. induction F' as [|d d' l l' H F IH]; [reflexivity|]. simpl. rewrite IH, (same_entries _ _ H). reflexivity. }
    rewrite <- E. exact F.
  - destruct S as (Sn & _). specialize (R (c_name (mod_name m) ++ "_msgids.h")%string). rewrite <- Sn.
    rewrite Sn. rewrite (R (render_header c (msgids_filename (bm_name bm) ++ ".h") MSGIDS)).
    + unfold render_header, guard_open, guard_close, file_header. cbn [is_msgids is_stored_data].
      rewrite <- ?string_app_assoc. cbn [String.eqb]. f_equal. rewrite <- ?string_app_assoc.
      assert (L : concat_map_str (fun d => render_define d ++ NL)%string (cd_defines c) = String.concat "" (map define_line (cd_defines c))).
      { change (String.concat "" (map define_line (cd_defines c))) with (concat_map_str define_line (cd_defines c)).
        clear. induction (cd_defines c) as [|d ds IH]; [reflexivity|]. rewrite !concat_map_str_cons, IH. f_equal.
        unfold render_define, define_line. rewrite <- ?string_app_assoc. 
        destruct (df_newline d); cbn [append]; rewrite ?string_app_nil; reflexivity. }
      destruct (cd_defines c) as [|d ds]; [reflexivity|]. cbn [is_nil]. rewrite L, <- ?string_app_assoc. reflexivity.
    + right. left. unfold bm_name, msgids_filename. rewrite Sn, <- string_app_assoc. reflexivity.
Qed.

Lemma grammatical_defs : forall m, grammatical m = true -> Forall (fun d => definition_ok d = true) (mod_defs m).
Proof.
  intros m H. unfold grammatical in H. apply Forall_forall. intros d Hd.
  repeat (apply andb_prop in H; destruct H as (H & ?)).
  match goal with G : forallb definition_ok _ = true |- _ => rewrite forallb_forall in G; apply G; exact Hd end.
Qed.

Lemma concat_in : forall A (f : A -> string) l x, In x l ->
  exists p q, String.concat "" (map f l) = (p ++ f x ++ q)%string.
Proof.
  intros A f. induction l as [|y l IH]; intros x Hx; [destruct Hx|]. change (String.concat "" (map f (y :: l))) with (concat_map_str f (y :: l)).
  rewrite concat_map_str_cons. destruct Hx as [->|Hx]; [exists "", (concat_map_str f l); reflexivity|].
  destruct (IH _ Hx) as (p & q & E). unfold concat_map_str. rewrite E. exists (f y ++ p)%string, q. rewrite string_app_assoc. reflexivity.
Qed.

Lemma in_def_entries : forall n cm ms k w e, In k ms -> m_with k = Some w -> In e (clause_entries w) ->
  In (n, e) (def_entries (DSequence n cm ms)).
Proof.
  intros n cm ms k w e Hk Hw He. cbn [def_entries]. apply in_map. apply in_flat_map. exists k. split; [exact Hk|].
  unfold member_entries. rewrite Hw. exact He.
Qed.

(** A define in the file for every entry. *)
Lemma entry_written : forall names fuel input fs fs' m n cm ms k w e,
  Forall (fun m => grammatical m = true) input -> run fuel (GenerateCfs names) input fs = (fs', Ok tt) -> In m input ->
  In (DSequence n cm ms) (mod_defs m) -> In k ms -> m_with k = Some w -> In e (clause_entries w) ->
  exists d p q, defines n e d
    /\ folder_get fs' (c_name (mod_name m) ++ "_msgids.h")
       = Some (p ++ "#define " ++ df_name d ++ " " ++ df_value d ++ NL ++ q)%string.
Proof.
  intros names fuel input fs fs' m n cm ms k w e Hg H Hm Hd Hk Hw He.
  destruct (msgids_written _ _ _ _ _ _ Hg H Hm) as (order & ds & g & P & F & E & _).
  assert (Hin : In (n, e) (flat_map def_entries order)).
  { apply in_flat_map. exists (DSequence n cm ms). split; [apply (Permutation_in _ (Permutation_sym P)); exact Hd|].
    eapply in_def_entries; eassumption. }
  destruct (Forall2_in_l _ _ _ _ _ _ F Hin) as (d & Hdd & D). cbn [fst snd] in D. exists d.
  destruct (concat_in _ define_line ds d Hdd) as (p & q & Ec). rewrite Ec in E. rewrite E.
  match type of E with _ = Some (?A ++ ?B ++ ?C ++ ?D ++ ?E ++ ?F ++ ?G ++ ?H ++ ?I ++ ?J ++ ?K ++ ?L ++ ?M ++ ?N ++ (p ++ define_line d ++ q) ++ ?R)%string =>
    exists ((A ++ B ++ C ++ D ++ E ++ F ++ G ++ H ++ I ++ J ++ K ++ L ++ M ++ N) ++ p)%string,
           ((if df_newline d then NL else "") ++ q ++ R)%string end.
  split; [exact D|]. unfold define_line. rewrite <- ?string_app_assoc. reflexivity.
Qed.

Lemma mid_written : forall names fuel input fs fs' m n cm ms k w h items,
  Forall (fun m => grammatical m = true) input -> run fuel (GenerateCfs names) input fs = (fs', Ok tt) -> In m input ->
  In (DSequence n cm ms) (mod_defs m) -> In k ms -> m_with k = Some w -> In (EHeader h) (clause_entries w) ->
  header_of h items -> NoDup (map wi_key items) -> fits (identification items) ->
  exists p q s, folder_get fs' (c_name (mod_name m) ++ "_msgids.h")
       = Some (p ++ "#define " ++ upper (c_name n) ++ "_MID (0x" ++ s ++ ")" ++ NL ++ q)%string
    /\ String.length s = 4 /\ read_hex s = Some (message_id (identification items)).
Proof.
  intros names fuel input fs fs' m n cm ms k w h items Hg H Hm Hd Hk Hw He Hh Hn Hf.
  destruct (entry_written _ _ _ _ _ _ _ _ _ _ _ _ Hg H Hm Hd Hk Hw He) as (d & p & q & (N & _ & s & V & _ & D) & E).
  exists p, q, s. split; [|apply D; assumption]. rewrite E, N, V. cbn [entry_key].
  change (upper (c_name "mid")) with "MID". rewrite <- ?string_app_assoc. reflexivity.
Qed.

Lemma define_names_input : forall m order ds, grammatical m = true -> Permutation order (mod_defs m) ->
  Forall2 (fun ne d => defines (fst ne) (snd ne) d) (flat_map def_entries order) ds ->
  (NoDup (map df_name ds) <-> NoDup (map (fun ne => fst ne ++ "-" ++ entry_key (snd ne))%string (flat_map def_entries (mod_defs m)))).
Proof.
  intros m order ds Hg P F. rewrite (define_names order ds).
  - assert (Q : Permutation (map (fun ne => fst ne ++ "-" ++ entry_key (snd ne))%string (flat_map def_entries order))
      (map (fun ne => fst ne ++ "-" ++ entry_key (snd ne))%string (flat_map def_entries (mod_defs m)))).
    { apply Permutation_map. apply Permutation_flat_map. exact P. }
    split; intros G; [apply (Permutation_NoDup Q G)|apply (Permutation_NoDup (Permutation_sym Q) G)].
  - apply grammatical_defs in Hg. rewrite Forall_forall in *. intros d Hd. apply Hg. apply (Permutation_in _ P). exact Hd.
  - exact F.
Qed.

(** Nothing is checked: any APID is accepted. *)
Lemma any_apid : forall n z, (0 <= z)%Z ->
  exists s, cfs_with_components n (mkmember "header" (TName "H") None (Some (WC None [WI "primary" (VWith (WC None
     [WI "packet-identification" (VWith (WC None [WI "application-process-identifier" (VInt z) None])) None])) None])))
   = Ok (mkcdata [] [mkdefine (upper n ++ "_MID") ("(0x" ++ s ++ ")") false] [] [] [] "" false false "" [])
  /\ read_hex s = Some z.
Proof.
  intros n z Hz. exists (format_X 4 z). split; [|apply read_format_X; exact Hz].
  unfold cfs_with_components. cbn [m_with]. unfold cfs_defines. change (String.eqb "primary" KEY_PRIMARY) with true. cbv iota beta.
  cbn [wc_items primary_msg_id]. change (String.eqb "packet-identification" KEY_IDENT) with true. cbv iota.
  cbn [wc_items ident_msg_id]. change (String.eqb "application-process-identifier" KEY_VERSION) with false.
  change (String.eqb "application-process-identifier" KEY_TYPE) with false.
  change (String.eqb "application-process-identifier" KEY_SEC_HEADER_FLAG) with false.
  change (String.eqb "application-process-identifier" KEY_APID) with true. cbv iota. cbn [as_int bind].
  change (16 - 3 - 1 - 1 - 11)%Z with 0%Z. rewrite Z.shiftl_0_r, Z.lor_0_l. reflexivity.
Qed.

Lemma mid_distinct : forall n n' h h' i i' d d',
  defines n (EHeader h) d -> defines n' (EHeader h') d' -> header_of h i -> header_of h' i' ->
  NoDup (map wi_key i) -> NoDup (map wi_key i') -> fits (identification i) -> fits (identification i') ->
  df_value d = df_value d' -> identification i = identification i'.
Proof.
  intros n n' h h' i i' d d' (_ & _ & s & V & _ & D) (_ & _ & s' & V' & _ & D') H H' N N' F F' E. rewrite V, V' in E.
  destruct (D _ H N F) as (L & R). destruct (D' _ H' N' F') as (L' & R').
  apply string_app_inv_l in E. apply string_app_inv_r in E. subst s'. rewrite R in R'. injection R' as R'.
  apply message_id_inj; assumption.
Qed.

Lemma cfs_clause_ok_iff : forall n k w, m_with k = Some w ->
  ((exists c, cfs_with_components n k = Ok c) <-> Forall encodable (clause_entries w)).
Proof.
  intros n k w Hw. rewrite <- (cfs_defines_ok_iff n). unfold cfs_with_components. rewrite Hw. split.
  - intros (c & H). apply bind_ok in H. destruct H as (ds & H & _). eauto.
  - intros (ds & ->). simpl. eauto.
Qed.
