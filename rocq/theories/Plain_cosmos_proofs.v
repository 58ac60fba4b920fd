(** * Proofs: comments in COSMOS files *)
From Verif Require Import Base PyNum PyStr Ast Size Processor Bundle Sorter CCommon GenCosmos Main
  Lib_proofs Str_proofs Spec_Check Check_proofs Bundle_proofs Spec_Plain Plain_proofs Plain_runs_proofs.
Open Scope string_scope.
Open Scope list_scope.

Definition plain_dref (d : dref) : dref := mkdref (dr_mod d) (dr_pos d) (plain_definition (dr_def d)).
Definition plain_state (st : cstate) : cstate := map (fun x => let '(a, b, c, l) := x in (a, b, c, map plain_component l)) st.
Definition plain_entry (e : entry) : entry :=
  mkentry (te_name e) (te_bits e) (te_type e) (te_value e) "" "" (te_range e) (te_states e) (te_array e) false.
Definition plain_packet (p : packet) : packet := mkpacket (pk_name p) "" (map plain_entry (pk_entries p)).

Lemma plain_number_defs : forall mi l i, number_defs mi i (map plain_definition l) = map plain_dref (number_defs mi i l).
Proof. intros mi. induction l as [|d l IH]; intros i; simpl; [reflexivity|]. rewrite IH. reflexivity. Qed.
Lemma plain_module_drefs : forall b mi, module_drefs (plain_bundle b) mi = map plain_dref (module_drefs b mi).
Proof.
  intros b mi. unfold module_drefs. simpl. rewrite nth_error_map. destruct (nth_error (b_modules b) mi) as [bm|]; simpl; [|reflexivity].
  apply plain_number_defs.
Qed.
Lemma plain_dedup : forall l, dedup_drefs (map plain_dref l) = map plain_dref (dedup_drefs l).
Proof. induction l as [|d l IH]; simpl; [reflexivity|]. rewrite IH, filter_map. reflexivity. Qed.

Lemma plain_recurs : forall fuel b n mi,
  definitions_recurs fuel (plain_bundle b) n mi = rmap (map plain_dref) (definitions_recurs fuel b n mi).
Proof.
  induction fuel as [|fuel IH]; intros b n mi; [reflexivity|]. cbn [definitions_recurs]. rewrite plain_module_drefs. simpl b_modules.
  rewrite nth_error_map.
  replace (match option_map plain_bm (nth_error (b_modules b) mi) with Some bm => bm_imported bm | None => [] end)
    with (match nth_error (b_modules b) mi with Some bm => bm_imported bm | None => [] end)
    by (destruct (nth_error (b_modules b) mi); reflexivity).
  set (is := match nth_error (b_modules b) mi with Some bm => bm_imported bm | None => [] end).
  rewrite <- (map_id is) at 1.
  rewrite (map_result_map _ _ _ _ (fun x => x) (map plain_dref) (definitions_recurs fuel b n)) by (intros a _; apply IH).
  apply rmap_bind. intros ls _. cbn [rmap]. f_equal. rewrite <- plain_dedup. f_equal.
  unfold flatten. rewrite <- concat_map, <- map_app, filter_map. f_equal. apply filter_ext. intros d. simpl. rewrite plain_def_name. reflexivity.
Qed.

Lemma plain_get_definition : forall fuel b n mi, get_definition fuel (plain_bundle b) n mi = rmap plain_dref (get_definition fuel b n mi).
Proof.
  intros fuel b n mi. unfold get_definition. rewrite plain_recurs. apply rmap_bind. intros [|d [|d' l]] _; reflexivity.
Qed.

Definition plain_info (i : leaf_info) : leaf_info := match i with Nested d => Nested (plain_dref d) | _ => i end.

Lemma plain_member_info : forall fuel b mi t, member_info fuel (plain_bundle b) mi t = rmap plain_info (member_info fuel b mi t).
Proof.
  intros fuel b mi t. unfold member_info. cbv zeta. destruct (mem _ _); [reflexivity|]. destruct (String.eqb _ _); [reflexivity|].
  assert (G : forall n, (let* d := get_definition fuel (plain_bundle b) n mi in
      match dr_def d with
      | DSimple _ t' _ => Ok (Leaf [] (get_c_type t') (type_begin t') (type_end t'))
      | DEnumerated _ _ l => Ok (Leaf (map e_key l) (Some A_UINT) (Some (NInt 0)) (Some (NInt (Z.of_nat (List.length l) - 1))))
      | _ => Ok (Nested d) end)
    = rmap plain_info (let* d := get_definition fuel b n mi in
      match dr_def d with
      | DSimple _ t' _ => Ok (Leaf [] (get_c_type t') (type_begin t') (type_end t'))
      | DEnumerated _ _ l => Ok (Leaf (map e_key l) (Some A_UINT) (Some (NInt 0)) (Some (NInt (Z.of_nat (List.length l) - 1))))
      | _ => Ok (Nested d) end)).
  { intros n. rewrite plain_get_definition. apply rmap_bind. intros [i j [dn c ms|dn c ms|dn c is|dn t' c]] _; cbn [plain_dref dr_def plain_definition rmap]; try reflexivity.
    rewrite map_map, map_length. reflexivity. }
  destruct t; try apply G. reflexivity.
Qed.

Lemma plain_state_get : forall st mi di k, state_get (plain_state st) mi di k = option_map (map plain_component) (state_get st mi di k).
Proof.
  induction st as [|[[[a b] c] l] st IH]; intros mi di k; simpl; [reflexivity|]. destruct (Nat.eqb a mi && Nat.eqb b di && Nat.eqb c k); [reflexivity|apply IH].
Qed.

Lemma plain_given : forall l key, given_value (map plain_component l) key = option_map plain_value (given_value l key).
Proof.
  intros l key. unfold given_value. rewrite filter_map. rewrite (filter_ext (fun a => String.eqb (wi_key (plain_component a)) key) (fun a => String.eqb (wi_key a) key))
    by (intros i; rewrite plain_component_key; reflexivity).
  destruct (filter _ l) as [|x [|y r]]; simpl; try reflexivity. rewrite plain_component_value. reflexivity.
Qed.

Lemma plain_own : forall st mi di k m, own_components (plain_state st) mi di k (plain_member m) = option_map (map plain_component) (own_components st mi di k m).
Proof.
  intros st mi di k m. unfold own_components. simpl. destruct (m_with m) as [w|]; [|reflexivity]. simpl. rewrite plain_state_get.
  destruct (state_get st mi di k); simpl; [reflexivity|]. rewrite plain_clause_items. reflexivity.
Qed.

Lemma plain_hand_down : forall st mi di k m given,
  hand_down (plain_state st) mi di k (plain_member m) (option_map plain_value given) =
  (map plain_component (fst (hand_down st mi di k m given)), plain_state (snd (hand_down st mi di k m given))).
Proof.
  intros st mi di k m given. unfold hand_down. cbv zeta. rewrite plain_own.
  replace (match option_map plain_value given with Some (VWith w) => Some (wc_items w) | _ => None end)
    with (option_map (map plain_component) (match given with Some (VWith w) => Some (wc_items w) | _ => None end))
    by (destruct given as [[z|f|b|w]|]; simpl; rewrite ?plain_clause_items; reflexivity).
  destruct (own_components st mi di k m) as [o|]; destruct (match given with Some (VWith w) => Some (wc_items w) | _ => None end) as [i|]; simpl; try reflexivity.
  rewrite map_app. reflexivity.
Qed.

Lemma plain_leaf : forall m given states c bg en,
  leaf_entry (plain_member m) (option_map plain_value given) states c bg en = rmap plain_entry (leaf_entry m given states c bg en).
Proof.
  intros m given states [c|] bg en; [|reflexivity]. unfold leaf_entry. apply bind_rmap_same. intros bits _. apply bind_rmap_same. intros range _.
  cbn [plain_member m_type m_key m_comment]. cbv zeta.
  replace (match match m_type m with TArray n _ => Some n | _ => None end with
           | Some n => Ok (str_of_Z (n * bits))
           | None => if String.eqb (m_key m) COSMOS_KEY_APID then apid_value (option_map plain_value given)
                     else Ok (match option_map plain_value given with Some v => str_value v | None => "" end) end)
    with (match match m_type m with TArray n _ => Some n | _ => None end with
           | Some n => Ok (str_of_Z (n * bits))
           | None => if String.eqb (m_key m) COSMOS_KEY_APID then apid_value given
                     else Ok (match given with Some v => str_value v | None => "" end) end)
    by (destruct given as [[z|f|b|w]|]; reflexivity).
  apply bind_rmap_same. intros v _. reflexivity.
Qed.

Definition plain_items (x : list entry * cstate) : list entry * cstate := (map plain_entry (fst x), plain_state (snd x)).

Lemma plain_items_of : forall fuel b root d wc st,
  items_of fuel (plain_bundle b) root (plain_dref d) (map plain_component wc) (plain_state st) = rmap plain_items (items_of fuel b root d wc st).
Proof.
  induction fuel as [|fuel IH]; intros b root d wc st; [reflexivity|]. cbn [items_of].
  destruct d as [mi di [n c ms|n c ms|n c is|n t c]]; cbn [plain_dref dr_def dr_mod dr_pos plain_definition]; try reflexivity.
  generalize 0%nat. revert st. induction ms as [|m ms IHm]; intros st k; [reflexivity|]. cbn [map].
  change (m_key (plain_member m)) with (m_key m). change (m_type (plain_member m)) with (m_type m). rewrite plain_given, plain_hand_down.
  destruct (hand_down st mi di k m (given_value wc (m_key m))) as [down st1]. cbn [fst snd]. rewrite plain_member_info.
  apply rmap_bind. intros info _.
  replace (match plain_info info with
    | Nested d' => items_of fuel (plain_bundle b) root d' (map plain_component down) (plain_state st1)
    | Leaf states c0 bg en => let* e := leaf_entry (plain_member m) (option_map plain_value (given_value wc (m_key m))) states c0 bg en in Ok ([e], plain_state st1)
    end) with (rmap plain_items (match info with
    | Nested d' => items_of fuel b root d' down st1
    | Leaf states c0 bg en => let* e := leaf_entry m (given_value wc (m_key m)) states c0 bg en in Ok ([e], st1)
    end)).
  2:{ destruct info as [d'|states c0 bg en]; cbn [plain_info]; [symmetry; apply IH|]. rewrite plain_leaf. symmetry. apply rmap_bind. reflexivity. }
  apply rmap_bind. intros [es st2] _. unfold plain_items at 1. cbn [fst snd]. rewrite IHm. apply rmap_bind. intros [rest st3] _.
  unfold plain_items. cbn [fst snd rmap]. rewrite map_app. reflexivity.
Qed.

Lemma plain_packets : forall fuel b mi l st,
  packets fuel (plain_bundle b) mi l (plain_state st) = rmap (map plain_packet) (packets fuel b mi l st).
Proof.
  intros fuel b mi. induction l as [|n l IH]; intros st; [reflexivity|]. cbn [packets]. rewrite plain_module_drefs.
  replace (map (fun d => (def_name (dr_def d), d)) (map plain_dref (module_drefs b mi)))
    with (map (fun x => (fst x, plain_dref (snd x))) (map (fun d => (def_name (dr_def d), d)) (module_drefs b mi)))
    by (rewrite !map_map; apply map_ext; intros d; simpl; rewrite plain_def_name; reflexivity).
  rewrite dict_get_map. destruct (dict_get n _) as [d|]; [|reflexivity]. cbn [option_map].
  pose proof (plain_items_of fuel b mi d [] st) as E. cbn [map] in E. rewrite E. apply rmap_bind. intros [es st1] _.
  unfold plain_items. cbn [fst snd]. rewrite IH. apply rmap_bind. intros rest _. cbn [rmap map]. unfold plain_packet at 2. simpl. rewrite plain_def_name.
  replace (def_comment (plain_definition (dr_def d))) with (@None comment) by (destruct (dr_def d); reflexivity). reflexivity.
Qed.

Lemma plain_index : forall n l i, index_of n i (map plain_bm l) = index_of n i l.
Proof. intros n. induction l as [|m l IH]; intros i; simpl; [reflexivity|]. rewrite IH. reflexivity. Qed.

Lemma plain_cosmos_packets : forall fuel b mn msgs,
  cosmos_packets fuel (plain_bundle b) mn msgs = rmap (map plain_packet) (cosmos_packets fuel b mn msgs).
Proof.
  intros fuel b mn msgs. unfold cosmos_packets, get_module. simpl b_modules. rewrite is_nil_map.
  destruct (is_nil (b_modules b)); [reflexivity|]. cbn [bind]. rewrite find_map.
  change (fun a => String.eqb (bm_name (plain_bm a)) mn) with (fun a => String.eqb (bm_name a) mn).
  replace (match option_map plain_bm (find (fun a => String.eqb (bm_name a) mn) (b_modules b)) with Some bm => map def_name (mod_defs (bm_mod bm)) | None => [] end)
    with (match find (fun a => String.eqb (bm_name a) mn) (b_modules b) with Some bm => map def_name (mod_defs (bm_mod bm)) | None => [] end)
    by (destruct (find _ _) as [bm|]; simpl; rewrite ?plain_names; reflexivity).
  apply bind_rmap_same. intros _ _. rewrite plain_index. destruct (index_of mn 0 (b_modules b)) as [mi|]; [|reflexivity].
  exact (plain_packets fuel b mi msgs []).
Qed.

(** ** Which comments the entries show *)

Section Described.
Variable cs : list comment.

Definition entry_said (e : entry) : Prop :=
  (te_comment e = "" /\ te_unit e = "" /\ te_little e = false)
  \/ exists c, In c cs /\ te_comment e = cm_text c /\ te_unit e = cm_unit c /\ te_little e = cm_little_endian c.
Definition packet_said (p : packet) : Prop :=
  (pk_comment p = "" \/ exists c, In c cs /\ pk_comment p = cm_text c) /\ Forall entry_said (pk_entries p).

Variable b : bundle.
Hypothesis ALL : forall bm d, In bm (b_modules b) -> In d (mod_defs (bm_mod bm)) -> incl (shown_in d) cs.

Lemma number_defs_in : forall mi l i d, In d (number_defs mi i l) -> In (dr_def d) l.
Proof. intros mi. induction l as [|x l IH]; intros i d I; [destruct I|]. destruct I as [<-|I]; [left; reflexivity|]. right. exact (IH _ _ I). Qed.
Lemma module_drefs_known : forall mi d, In d (module_drefs b mi) -> incl (shown_in (dr_def d)) cs.
Proof.
  intros mi d I. unfold module_drefs in I. destruct (nth_error (b_modules b) mi) as [bm|] eqn:E; [|destruct I].
  apply (ALL bm); [exact (nth_error_In _ _ E)|]. exact (number_defs_in _ _ _ _ I).
Qed.
Lemma dedup_drefs_in : forall l d, In d (dedup_drefs l) -> In d l.
Proof.
  induction l as [|x l IH]; intros d I; [destruct I|]. destruct I as [<-|I]; [left; reflexivity|]. apply filter_In in I. right. apply IH. apply I.
Qed.
Lemma recurs_known : forall fuel n mi l, definitions_recurs fuel b n mi = Ok l -> forall d, In d l -> incl (shown_in (dr_def d)) cs.
Proof.
  induction fuel as [|fuel IH]; intros n mi l H d I; [discriminate H|]. cbn [definitions_recurs] in H. apply bind_ok in H. destruct H as (ls & M & H).
  injection H as <-. apply dedup_drefs_in, filter_In, proj1, in_app_or in I. destruct I as [I|I]; [exact (module_drefs_known _ _ I)|].
  apply in_concat in I. destruct I as (l & L & I). apply map_result_ok in M. destruct (Forall2_in_r _ _ _ _ _ _ M L) as (j & _ & R). exact (IH _ _ _ R d I).
Qed.
Lemma get_known : forall fuel n mi d, get_definition fuel b n mi = Ok d -> incl (shown_in (dr_def d)) cs.
Proof.
  intros fuel n mi d H. unfold get_definition in H. apply bind_ok in H. destruct H as ([|x [|y l]] & R & H); try discriminate H. injection H as <-.
  apply (recurs_known _ _ _ _ R). left. reflexivity.
Qed.
Lemma info_known : forall fuel mi t d, member_info fuel b mi t = Ok (Nested d) -> incl (shown_in (dr_def d)) cs.
Proof.
  intros fuel mi t d H. unfold member_info in H. cbv zeta in H. destruct (mem _ _); [discriminate H|]. destruct (String.eqb _ _); [discriminate H|].
  destruct t; try discriminate H; apply bind_ok in H; destruct H as (x & G & H); pose proof (get_known _ _ _ _ G) as K;
    destruct (dr_def x) eqn:D; try discriminate H; injection H as <-; rewrite D; exact K.
Qed.

Lemma leaf_said : forall m given states c bg en e, incl (opt_list (m_comment m)) cs -> leaf_entry m given states c bg en = Ok e -> entry_said e.
Proof.
  intros m given states [c|] bg en e I H; [|discriminate H]. unfold leaf_entry in H. apply bind_ok in H. destruct H as (bits & _ & H).
  apply bind_ok in H. destruct H as (range & _ & H). cbv zeta in H. apply bind_ok in H. destruct H as (v & _ & H). injection H as <-.
  unfold entry_said. cbn [te_comment te_unit te_little]. destruct (m_comment m) as [cm|]; [right|left; auto]. exists cm. split; [apply I; left; reflexivity|auto].
Qed.

Lemma items_said : forall fuel root d wc st es st', incl (shown_in (dr_def d)) cs -> items_of fuel b root d wc st = Ok (es, st') -> Forall entry_said es.
Proof.
  induction fuel as [|fuel IH]; intros root d wc st es st' K H; [discriminate H|]. cbn [items_of] in H.
  destruct (dr_def d) as [n c ms|n c ms|n c is|n t c]; try discriminate H. cbn [shown_in] in K. apply incl_app_inv in K. destruct K as (_ & K).
  revert st es st' H. generalize 0%nat. induction ms as [|m ms IHm]; intros k st es st' H; [injection H as <- _; constructor|].
  cbn [flat_map] in K. apply incl_app_inv in K. destruct K as (K1 & K2). specialize (IHm K2).
  destruct (hand_down st (dr_mod d) (dr_pos d) k m (given_value wc (m_key m))) as [down st1]. apply bind_ok in H. destruct H as (info & N & H).
  apply bind_ok in H. destruct H as ([es1 st2] & X & H). apply bind_ok in H. destruct H as ([rest st3] & Y & H). injection H as <- _.
  apply Forall_app. split; [|exact (IHm _ _ _ _ Y)]. destruct info as [d'|states c0 bg en].
  - exact (IH _ _ _ _ _ _ (info_known _ _ _ _ N) X).
  - apply bind_ok in X. destruct X as (e & L & X). injection X as <- _. constructor; [|constructor]. exact (leaf_said _ _ _ _ _ _ _ K1 L).
Qed.

Lemma comment_shown : forall d, is_simple d = false -> incl (opt_list (def_comment d)) (shown_in d).
Proof. intros [n c ms|n c ms|n c is|n t c] H; try discriminate H; simpl; apply incl_appl; apply incl_refl. Qed.

Lemma packets_said : forall fuel mi l st ps, packets fuel b mi l st = Ok ps -> Forall packet_said ps.
Proof.
  intros fuel mi. induction l as [|n l IH]; intros st ps H; cbn [packets] in H; [injection H as <-; constructor|].
  destruct (dict_get n _) as [d|] eqn:D; [|discriminate H]. apply bind_ok in H. destruct H as ([es st1] & X & H). apply bind_ok in H. destruct H as (rest & R & H).
  injection H as <-. constructor; [|exact (IH _ _ R)]. apply dict_get_In in D. apply in_map_iff in D. destruct D as (d0 & Q & D). injection Q as _ ->.
  pose proof (module_drefs_known _ _ D) as K. split; [|exact (items_said _ _ _ _ _ _ _ K X)]. cbn [pk_comment].
  assert (S : is_simple (dr_def d) = false).
  { destruct fuel; [discriminate X|]. cbn [items_of] in X. destruct (dr_def d); try discriminate X; reflexivity. }
  apply comment_shown in S. destruct (def_comment (dr_def d)) as [c|]; [right|left; reflexivity]. exists c. split; [apply K, S; left; reflexivity|reflexivity].
Qed.

Lemma cosmos_said : forall fuel mn msgs ps, cosmos_packets fuel b mn msgs = Ok ps -> Forall packet_said ps.
Proof.
  intros fuel mn msgs ps H. unfold cosmos_packets in H. apply bind_ok in H. destruct H as (bm & _ & H). cbv zeta in H. apply bind_ok in H. destruct H as (_ & _ & H).
  destruct (index_of mn 0 (b_modules b)) as [mi|]; [|injection H as <-; constructor]. exact (packets_said _ _ _ _ _ H).
Qed.

(** ** The text *)

Open Scope string_scope.

Lemma described_app : forall x y, described cs x y -> forall u v, described cs u v -> described cs (x ++ u) (y ++ v).
Proof.
  intros x y H. induction H as [|s x y H IH|c x y I H IH|c x y I H IH|c x y I N H IH|c x y I N H IH]; intros u v X.
  - exact X.
  - rewrite <- !string_app_assoc. apply ds_text. apply IH. exact X.
  - rewrite <- !string_app_assoc. apply ds_packet; [exact I|]. apply IH. exact X.
  - rewrite <- !string_app_assoc. apply ds_item; [exact I|]. apply IH. exact X.
  - rewrite <- !string_app_assoc. apply ds_units; [exact I|exact N|]. apply IH. exact X.
  - rewrite <- !string_app_assoc. apply (ds_little cs c); [exact I|exact N|]. apply IH. exact X.
Qed.
Lemma described_refl : forall s, described cs s s.
Proof. intros s. rewrite <- (string_app_nil s). apply ds_text. apply ds_end. Qed.

Lemma replace_quote : forall a r, replace_space_nl (a ++ String DQ r) = replace_space_nl a ++ String DQ (replace_space_nl r).
Proof.
  assert (G : forall n a r, (String.length a <= n)%nat -> replace_space_nl (a ++ String DQ r) = replace_space_nl a ++ String DQ (replace_space_nl r)).
  { induction n as [|n IH]; intros [|x a] r H; simpl in H; try lia; try (destruct r; reflexivity).
    destruct a as [|y a].
    - cbn [append replace_space_nl]. replace (Ascii.eqb x " " && Ascii.eqb DQ LF) with false by (destruct (Ascii.eqb x " "); reflexivity).
      cbn [append]. f_equal. destruct r; reflexivity.
    - cbn [append replace_space_nl]. simpl in H. destruct (Ascii.eqb x " " && Ascii.eqb y LF).
      + cbn [append]. f_equal. apply IH. lia.
      + cbn [append]. f_equal. apply (IH (String y a) r). simpl. lia. }
  intros a r. apply (G (String.length a)). lia.
Qed.

Lemma described_line : forall e, entry_said e -> described cs (item_line (plain_entry e)) (item_line e).
Proof.
  intros e H. unfold item_line. change (id_or_array (plain_entry e)) with (id_or_array e). change (cosmos_value (plain_entry e)) with (cosmos_value e).
  cbn [plain_entry te_name te_bits te_type te_comment te_little].
  set (p := INDENT ++ ljust 19 (id_or_array e) ++ " " ++ ljust 31 (te_name e) ++ " " ++ rjust 7 (str_of_Z (te_bits e)) ++ " "
    ++ ljust 7 (cosmos_type (te_type e)) ++ " " ++ rjust 7 (cosmos_value e) ++ " ").
  assert (Q : forall c (l : bool), INDENT ++ ljust 19 (id_or_array e) ++ " " ++ ljust 31 (te_name e) ++ " " ++ rjust 7 (str_of_Z (te_bits e)) ++ " "
    ++ ljust 7 (cosmos_type (te_type e)) ++ " " ++ rjust 7 (cosmos_value e) ++ " " ++ DQUOTE ++ c ++ DQUOTE ++ " " ++ (if l then "LITTLE_ENDIAN" else "") ++ NL
    = p ++ String DQ (c ++ String DQ (" " ++ (if l then "LITTLE_ENDIAN" else "") ++ NL))).
  { intros c l. unfold p. rewrite <- !string_app_assoc. reflexivity. }
  pose proof (Q "" false) as Q0. cbv iota in Q0. rewrite Q0, (Q (te_comment e) (te_little e)). clear Q Q0.
  assert (L : forall c (l : bool), replace_space_nl (p ++ String DQ (c ++ String DQ (" " ++ (if l then "LITTLE_ENDIAN" else "") ++ NL)))
    = replace_space_nl p ++ DQUOTE ++ replace_space_nl c ++ DQUOTE ++ (if l then " LITTLE_ENDIAN" else "") ++ NL).
  { intros c l. rewrite !replace_quote. destruct l; reflexivity. }
  pose proof (L "" false) as L0. cbv iota in L0. rewrite L0, (L (te_comment e) (te_little e)). apply ds_text. clear L L0. cbn [replace_space_nl]. change ("" ++ DQUOTE ++ "" ++ NL) with (DQUOTE ++ NL).
  destruct H as [(-> & _ & ->)|(c & I & -> & _ & E)]; [apply described_refl|]. rewrite E.
  apply (ds_item cs c NL _ I). destruct (cm_little_endian c) eqn:T; [|apply described_refl].
  apply (ds_little cs c NL NL I T). apply described_refl.
Qed.

Lemma described_entry : forall e, entry_said e -> described cs (entry_text (plain_entry e)) (entry_text e).
Proof.
  intros e H. unfold entry_text. apply described_app; [apply described_line; exact H|]. cbn [plain_entry te_states te_range te_unit].
  apply ds_text. apply ds_text. unfold units_line. cbn [String.eqb].
  destruct H as [(_ & -> & _)|(c & I & _ & -> & _)]; [apply described_refl|]. destruct (String.eqb (cm_unit c) "") eqn:U; [apply ds_end|].
  apply (ds_units cs c "" ""); [exact I| |apply ds_end]. intros N. rewrite N in U. discriminate U.
Qed.

Lemma concat_cons' : forall a l, String.concat "" (a :: l) = a ++ String.concat "" l.
Proof. intros a [|x l]; simpl; [rewrite string_app_nil; reflexivity|reflexivity]. Qed.

Lemma described_packet : forall t p, packet_said p ->
  described cs (cosmos_telemetry t (pk_comment (plain_packet p)) (pk_name (plain_packet p)) (pk_entries (plain_packet p)))
    (cosmos_telemetry t (pk_comment p) (pk_name p) (pk_entries p)).
Proof.
  intros t p (C & E). unfold cosmos_telemetry. cbn [plain_packet pk_comment pk_name pk_entries]. do 5 apply ds_text.
  assert (B : described cs (NL ++ String.concat "" (map entry_text (map plain_entry (pk_entries p)))) (NL ++ String.concat "" (map entry_text (pk_entries p)))).
  { apply ds_text. induction E as [|e l H E IH]; [apply ds_end|]. cbn [map]. rewrite !concat_cons'. apply described_app; [apply described_entry; exact H|exact IH]. }
  destruct C as [->|(c & I & ->)]; [do 3 apply ds_text; exact B|]. exact (ds_packet cs c _ _ I B).
Qed.

Lemma described_text : forall t ps, Forall packet_said ps -> described cs (cosmos_text t (map plain_packet ps)) (cosmos_text t ps).
Proof.
  intros t ps H. unfold cosmos_text. do 2 apply ds_text. induction H as [|p ps P H IH]; [apply ds_end|]. cbn [map]. rewrite !concat_cons'.
  apply described_app; [|exact IH]. apply ds_text. apply described_packet. exact P.
Qed.
End Described.

Open Scope string_scope.

Lemma append_rel : forall cs out fs t t', described cs t t' ->
  Forall2 (fun f f' : string * string => fst f = fst f' /\ (snd f = snd f' \/ fst f = out /\ described cs (snd f) (snd f')))
    (folder_append (out, t) fs) (folder_append (out, t') fs).
Proof.
  intros cs out fs t t' H. unfold folder_append. cbn [fst snd].
  assert (R : forall l : folder, Forall2 (fun f f' : string * string => fst f = fst f' /\ (snd f = snd f' \/ fst f = out /\ described cs (snd f) (snd f'))) l l).
  { induction l as [|f l IH]; constructor; auto. }
  assert (G : forall x y, described cs x y -> Forall2 (fun f f' : string * string => fst f = fst f' /\ (snd f = snd f' \/ fst f = out /\ described cs (snd f) (snd f')))
    (dict_set out x fs) (dict_set out y fs)).
  { intros x y D. induction fs as [|[k v] fs IH]; cbn [dict_set]; [constructor; [cbn; auto|constructor]|].
    destruct (String.eqb out k); constructor; cbn; auto. }
  destruct (folder_get fs out) as [old|]; apply G; [apply ds_text; exact H|exact H].
Qed.

Lemma cosmos_plain : forall fuel mn msgs out input fs, Forall (fun m => Forall clean (module_comments m)) input ->
  Forall2 (same_but_comments (GenerateCosmos mn msgs out) input)
    (fst (run fuel (GenerateCosmos mn msgs out) (map plain input) fs)) (fst (run fuel (GenerateCosmos mn msgs out) input fs))
  /\ snd (run fuel (GenerateCosmos mn msgs out) (map plain input) fs) = snd (run fuel (GenerateCosmos mn msgs out) input fs).
Proof.
  intros fuel mn msgs out input fs C. cbn [run]. rewrite (build_cosmos_plain _ C). apply with_bundle_rel; [apply same_folder_refl|]. intros b B.
  apply cosmos_from_input in B. unfold generate_cosmos. rewrite plain_cosmos_packets.
  destruct (cosmos_packets fuel b mn msgs) as [ps|e|] eqn:E; cbn [rmap bind fst snd]; [|split; [apply same_folder_refl|reflexivity]..].
  split; [|reflexivity]. apply (cosmos_said (flat_map shown input)) in E.
  - pose proof (append_rel _ (out ++ ".txt") fs _ _ (described_text _ out ps E)) as R.
    eapply Forall2_impl; [|exact R]. intros f f' (N & H). split; [exact N|]. destruct H as [H|(F & H)]; [left; exact H|right; split; [exact F|exact H]].
  - intros bm d I D x X. destruct (B bm I) as (m & M & _ & S). apply in_flat_map. exists m. split; [exact M|]. apply S.
    unfold shown. apply in_or_app. right. apply in_or_app. right. apply in_flat_map. exists d. auto.
Qed.

(** ** All commands *)

Lemma comments_irrelevant : forall fuel cmd input fs, Forall (fun m => Forall clean (module_comments m)) input ->
  snd (run fuel cmd (map plain input) fs) = snd (run fuel cmd input fs)
  /\ Forall2 (same_but_comments cmd input) (fst (run fuel cmd (map plain input) fs)) (fst (run fuel cmd input fs)).
Proof.
  intros fuel cmd input fs C. apply and_comm. destruct cmd as [mn msgs out|names|names|names e].
  - apply cosmos_plain. exact C.
  - apply config_plain; [exact Logic.I|exact C].
  - apply config_plain; [exact Logic.I|exact C].
  - apply config_plain; [exact Logic.I|exact C].
Qed.

Lemma successful_clean : forall fuel cmd input fs, snd (run fuel cmd input fs) = Ok tt -> Forall (fun m => Forall clean (module_comments m)) input.
Proof.
  intros fuel cmd input fs H.
  assert (P : exists ms, parse_modules input = Ok ms).
  { destruct cmd as [mn msgs out|names|names|names e]; cbn [run] in H; unfold build_from_cosmos_config, build_from_config in H;
      destruct (parse_modules input) as [ms|e'|]; try discriminate H; exists ms; reflexivity. }
  destruct P as (ms & P). exact (built_clean _ _ P).
Qed.

Lemma success_irrelevant : forall fuel cmd input fs, snd (run fuel cmd input fs) = Ok tt ->
  snd (run fuel cmd (map plain input) fs) = Ok tt
  /\ Forall2 (same_but_comments cmd input) (fst (run fuel cmd (map plain input) fs)) (fst (run fuel cmd input fs)).
Proof.
  intros fuel cmd input fs H. rewrite <- H. apply comments_irrelevant. exact (successful_clean _ _ _ _ H).
Qed.

Lemma two_comments : forall fuel cmd input input' fs, Forall (fun m => Forall clean (module_comments m)) input ->
  Forall (fun m => Forall clean (module_comments m)) input' -> map plain input = map plain input' ->
  snd (run fuel cmd input fs) = snd (run fuel cmd input' fs)
  /\ exists bare, Forall2 (same_but_comments cmd input) bare (fst (run fuel cmd input fs))
                  /\ Forall2 (same_but_comments cmd input') bare (fst (run fuel cmd input' fs)).
Proof.
  intros fuel cmd input input' fs C C' E. destruct (comments_irrelevant fuel cmd input fs C) as (S & F).
  destruct (comments_irrelevant fuel cmd input' fs C') as (S' & F'). rewrite <- E in S', F'. split; [congruence|].
  exists (fst (run fuel cmd (map plain input) fs)). auto.
Qed.
