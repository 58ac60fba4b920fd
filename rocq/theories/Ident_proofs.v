(** * Proofs: telling the packets of messages apart *)
From Coq Require Import Lia ZifyBool ZifyNat ZifyN.
From Verif Require Import Base PyNum PyStr Ast Size Bundle CCommon GenCfs GenCosmos Main Spec_Enum Spec_Grammar Spec_Num Spec_Check
  Spec_Bundle Spec_Size Spec_Text Spec_Gen Spec_Cfs Cfs_proofs Spec_Cosmos Cosmos_proofs Spec_Telemetry Telemetry_proofs Lib_proofs Bundle_proofs Accept_proofs Cosmos_text_proofs Spec_Ident.
Open Scope Z_scope.

Lemma bits_app : forall b a, bits_value (a ++ b) = bits_value a * 2 ^ Z.of_nat (length b) + bits_value b.
Proof.
  intros b. induction b as [|x b IH] using rev_ind; intros a.
  - rewrite app_nil_r. cbn. lia.
  - assert (S : forall l (y : bool), bits_value (l ++ [y]) = 2 * bits_value l + if y then 1 else 0).
    { intros l y. unfold bits_value. rewrite fold_left_app. reflexivity. }
    rewrite app_assoc, !S, IH, app_length. cbn [length]. rewrite Nat2Z.inj_add. change (Z.of_nat 1) with 1.
    rewrite Z.pow_add_r by lia. lia.
Qed.

Lemma bits_range : forall bs, 0 <= bits_value bs < 2 ^ Z.of_nat (length bs).
Proof.
  intros bs. induction bs as [|x bs IH] using rev_ind; [cbn; lia|].
  rewrite bits_app, app_length. cbn [length]. rewrite Nat2Z.inj_add, Z.pow_add_r by lia.
  change (2 ^ Z.of_nat 1) with 2. destruct x; cbn [bits_value fold_left]; lia.
Qed.

(** The four fields of a word. *)
Lemma word_fields : forall bs, length bs = 16%nat ->
  let v := bits_value (firstn 3 bs) in let t := bits_value (firstn 1 (skipn 3 bs)) in
  let s := bits_value (firstn 1 (skipn 1 (skipn 3 bs))) in let a := bits_value (firstn 11 (skipn 1 (skipn 1 (skipn 3 bs)))) in
  bits_value bs = message_id (mkident v t s a) /\ Spec_Cfs.fits (mkident v t s a).
Proof.
  intros bs L v t s a.
  assert (E : bs = (firstn 3 bs ++ firstn 1 (skipn 3 bs) ++ firstn 1 (skipn 1 (skipn 3 bs)) ++ firstn 11 (skipn 1 (skipn 1 (skipn 3 bs))))%list).
  { do 16 (destruct bs as [|? bs]; [discriminate|]). destruct bs; [|discriminate]. reflexivity. }
  assert (L1 : length (firstn 3 bs) = 3%nat) by (rewrite firstn_length; lia).
  assert (L2 : length (firstn 1 (skipn 3 bs)) = 1%nat) by (rewrite firstn_length, skipn_length; lia).
  assert (L3 : length (firstn 1 (skipn 1 (skipn 3 bs))) = 1%nat) by (rewrite firstn_length, !skipn_length; lia).
  assert (L4 : length (firstn 11 (skipn 1 (skipn 1 (skipn 3 bs)))) = 11%nat) by (rewrite firstn_length, !skipn_length; lia).
  assert (R1 := bits_range (firstn 3 bs)). assert (R2 := bits_range (firstn 1 (skipn 3 bs))).
  assert (R3 := bits_range (firstn 1 (skipn 1 (skipn 3 bs)))). assert (R4 := bits_range (firstn 11 (skipn 1 (skipn 1 (skipn 3 bs))))).
  rewrite L1 in R1. rewrite L2 in R2. rewrite L3 in R3. rewrite L4 in R4.
  fold v in R1. fold t in R2. fold s in R3. fold a in R4.
  split.
  - transitivity (bits_value (firstn 3 bs ++ firstn 1 (skipn 3 bs) ++ firstn 1 (skipn 1 (skipn 3 bs)) ++ firstn 11 (skipn 1 (skipn 1 (skipn 3 bs))))).
    { f_equal. exact E. }
    rewrite !bits_app, !app_length, L2, L3, L4. fold v t s a. unfold message_id. cbn [version is_cmd sec_hdr apid].
    change (2 ^ Z.of_nat (1 + (1 + 11))) with (2 ^ 13). change (2 ^ Z.of_nat (1 + 11)) with (2 ^ 12). change (2 ^ Z.of_nat 11) with (2 ^ 11). lia.
  - unfold Spec_Cfs.fits. cbn [version is_cmd sec_hdr apid]. change (Z.of_nat 3) with 3 in R1. change (2 ^ Z.of_nat 1) with 2 in *. change (Z.of_nat 11) with 11 in R4. lia.
Qed.

(** ** The clause of the header leaves *)

Lemma clauses_snoc : forall p m, clauses_at (p ++ [m]) = (own_clause m ++ flat_map (narrow (m_key m)) (clauses_at p))%list.
Proof. intros p m. unfold clauses_at. rewrite fold_left_app. reflexivity. Qed.

Lemma narrow_in : forall x w c l, In (WI x (VWith w) c) l -> In (wc_items w) (narrow x l).
Proof.
  intros x w c l H. unfold narrow. apply in_flat_map. exists (WI x (VWith w) c). split; [exact H|].
  rewrite String.eqb_refl. left. reflexivity.
Qed.

Lemma clauses_below : forall p m l w c, In l (clauses_at p) -> In (WI (m_key m) (VWith w) c) l -> In (wc_items w) (clauses_at (p ++ [m])).
Proof.
  intros p m l w c Hl Hw. rewrite clauses_snoc. apply in_or_app. right. apply in_flat_map. exists l. split; [exact Hl|].
  eapply narrow_in. exact Hw.
Qed.

Lemma header_clause : forall w xs items, header_at w xs items -> forall q p,
  map m_key q = (xs ++ ["primary"; "packet-identification"])%list -> In (wc_items w) (clauses_at p) -> In items (clauses_at (p ++ q)).
Proof.
  intros w xs items H. induction H as [c l h c' items Hh Ho|c l x w c' xs items Hw Hx H IH]; intros q p Eq Hp.
  - destruct q as [|m1 [|m2 [|]]]; try discriminate Eq. cbn in Eq. injection Eq as E1 E2.
    destruct Ho as (c1 & c2 & c3 & ->). rewrite <- E1 in Hh. assert (A := clauses_below _ _ _ _ _ Hp Hh). cbn [wc_items] in A.
    change [m1; m2] with ([m1] ++ [m2])%list. rewrite app_assoc.
    eapply (clauses_below _ m2 _ (WC c2 items)); [exact A|]. left. rewrite E2. reflexivity.
  - destruct q as [|m q]; [discriminate Eq|]. cbn in Eq. injection Eq as E1 E2. rewrite <- E1 in Hw.
    assert (A := clauses_below _ _ _ _ _ Hp Hw). change (m :: q) with ([m] ++ q)%list. rewrite app_assoc. apply IH; assumption.
Qed.

Lemma header_entry : forall w xs items, header_at w xs items -> exists h, In (EHeader h) (clause_entries w) /\ header_of h items.
Proof.
  intros w xs items H. induction H as [c l h c' items Hh Ho|c l x w c' xs items Hw Hx H (h & IH & Ho)].
  - exists h. split; [|exact Ho]. cbn [clause_entries]. apply in_flat_map. eexists. split; [exact Hh|]. left. reflexivity.
  - exists h. split; [|exact Ho]. cbn [clause_entries]. apply in_flat_map. eexists. split; [exact Hw|]. cbv beta iota.
    destruct (String.eqb x "primary") eqn:E; [apply String.eqb_eq in E; contradiction|exact IH].
Qed.

Lemma header_values : forall k q w xs items lf, m_with k = Some w -> header_at w xs items ->
  map m_key q = (xs ++ ["primary"; "packet-identification"])%list -> lf_path lf = k :: q -> one_clause lf ->
  NoDup (map wi_key items) /\ fixed_values lf = values_for (m_key (lf_member lf)) items.
Proof.
  intros k q w xs items lf Hw H Eq Ep (O & _).
  assert (A : In items (clauses_at ([k] ++ q))).
  { apply (header_clause _ _ _ H); [exact Eq|]. cbn. unfold own_clause. rewrite Hw. left. reflexivity. }
  cbn [app] in A. specialize (O (k :: q) []). rewrite app_nil_r in O. specialize (O Ep). destruct O as (O1 & O2).
  unfold fixed_values. rewrite Ep. destruct (clauses_at (k :: q)) as [|l [|]]; [contradiction| |cbn in O1; lia].
  destruct A as [->|[]]. inversion O2; subst. split; [assumption|]. cbn. apply app_nil_r.
Qed.

(** ** One field *)

Lemma values_given : forall k l, NoDup (map wi_key l) ->
  (~ In k (map wi_key l) /\ values_for k l = [] /\ given k l = 0)
  \/ (In k (map wi_key l) /\ exists v, values_for k l = [v] /\ given k l = match numeric v with Some z => z | None => 0 end).
Proof.
  intros k l N. unfold values_for, given. induction l as [|i l IH]; [left; cbn; auto|].
  cbn [map] in N. inversion N as [|? ? N1 N2]; subst. cbn [filter find map].
  destruct (String.eqb (wi_key i) k) eqn:E.
  - apply String.eqb_eq in E. right. split; [left; exact E|]. exists (wi_value i). split; [|reflexivity].
    cbn [map]. f_equal. destruct (IH N2) as [(_ & A & _)|(A & _)]; [exact A|]. exfalso. apply N1. rewrite E. exact A.
  - apply String.eqb_neq in E. destruct (IH N2) as [(A & B & C)|(A & B)]; [left|right].
    + split; [|auto]. intros [X|X]; [contradiction|]. apply A. exact X.
    + split; [right; exact A|exact B].
Qed.

Lemma field_item : forall path key bits lf t items, field_leaf path key bits lf -> item_of lf t -> 0 <= bits ->
  NoDup (map wi_key items) -> fixed_values lf = values_for key items -> 0 <= given key items ->
  (key = "application-process-identifier"%string -> lf_kind lf = A_UINT) ->
  unsigned_item t
  /\ (match t_role t with Array n => n | _ => t_bits t end) = bits
  /\ forall z, (given key items = z -> match t_role t with Id v => read_number v = Some z | _ => True end)
     /\ ((lf_kind lf = A_UINT -> In key (map wi_key items)) -> match t_role t with Id v => read_number v = Some z | _ => True end -> given key items = z).
Proof.
  intros path key bits lf t items (Ep & Ek & Eb & Na & Nl & K & V) I Hb N F G Ka.
  destruct I as [_ R Bt Ty _ Li _ _ _]. unfold role_of in R. rewrite Ek, F in R. rewrite F in V.
  assert (Na' : forall X (a b : X), (match m_type (lf_member lf) with TArray _ _ => a | _ => b end) = b).
  { destruct (m_type (lf_member lf)); try reflexivity. discriminate Na. }
  split; [split; [rewrite Ty; destruct K as [->| ->]; reflexivity|rewrite Li; exact Nl]|].
  destruct (values_given key items N) as [(Ni & E0 & G0)|(Hi & v & E1 & G1)].
  - rewrite E0 in R. assert (R' : (lf_kind lf = A_UINT /\ t_role t = Value) \/ (lf_kind lf = A_BOOL /\ t_role t = Id "0"%string)).
    { destruct (m_type (lf_member lf)); try discriminate Na; destruct K as [K|K]; rewrite K in R; auto. }
    destruct R' as [(K1 & ->)|(K1 & ->)]; (split; [congruence|]); intros z; rewrite G0; split.
    + auto.
    + intros X _. exfalso. exact (Ni (X K1)).
    + intros <-. reflexivity.
    + intros _ X. change (read_number "0") with (Some 0) in X. congruence.
  - rewrite E1 in R. specialize (V v). rewrite E1 in V. specialize (V (or_introl eq_refl)).
    assert (R' : exists s, t_role t = Id s /\ read_number s = Some (given key items)).
    { rewrite G1 in *. destruct v as [y|f|b|w]; try contradiction; cbn [numeric] in *.
      - rewrite V in R.
        destruct (String.eqb key "application-process-identifier").
        + assert (R2 : exists z, (VInt y = VInt z \/ (VInt y = VBool true /\ z = 1) \/ (VInt y = VBool false /\ z = 0))
             /\ t_role t = Id ("0x" ++ format_X 2 z)).
          { destruct (m_type (lf_member lf)); try discriminate Na; exact R. }
          destruct R2 as (z & [X|[(X & _)|(X & _)]] & R2); try discriminate X. injection X as <-.
          exists ("0x" ++ format_X 2 y)%string. split; [exact R2|]. apply read_number_hex. lia.
        + exists (str_of_Z y). split; [|apply read_number_str]. destruct (m_type (lf_member lf)); try discriminate Na; exact R.
      - rewrite V in R. destruct (String.eqb key "application-process-identifier") eqn:Ea.
        + apply String.eqb_eq in Ea. rewrite (Ka Ea) in V. discriminate V.
        + exists (if b then "1" else "0")%string. split; [|destruct b; reflexivity].
          destruct (m_type (lf_member lf)); try discriminate Na; destruct b; exact R. }
    destruct R' as (s & -> & Es). split; [congruence|]. intros z. rewrite Es. split; [intros ->; reflexivity|]. intros _ X. congruence.
Qed.

(** ** The header *)

Lemma header_recognised : forall k w xs items ls p, Forall2 item_of ls (p_items p) -> Forall one_clause ls -> Forall leaf_width ls ->
  m_with k = Some w -> header_at w xs items -> Spec_Cfs.fits (identification items) -> header_leaves k xs ls ->
  NoDup (map wi_key items) /\ recognises p (message_id (identification items)) (all_given items ls).
Proof.
  intros k w xs items ls p I O W Hw Hh Ft (q & rest & a & b & c & d & -> & Eq & Fa & Fb & Fc & Fd).
  inversion I as [|? t1 ? its1 I1 J1 E0 E1]; subst. inversion J1 as [|? t2 ? its2 I2 J2]; subst. inversion J2 as [|? t3 ? its3 I3 J3]; subst.
  inversion J3 as [|? t4 ? its4 I4 J4]; subst. clear I J1 J2 J3 J4.
  inversion O as [|? ? O1 P1]; subst. inversion P1 as [|? ? O2 P2]; subst. inversion P2 as [|? ? O3 P3]; subst. inversion P3 as [|? ? O4 P4]; subst. clear O P1 P2 P3 P4.
  inversion W as [|? ? _ W1]; subst. inversion W1 as [|? ? _ W2]; subst. inversion W2 as [|? ? _ W3]; subst. inversion W3 as [|? ? W4 _]; subst. clear W W1 W2 W3.
  assert (V : forall key bits lf, field_leaf (k :: q) key bits lf -> one_clause lf -> NoDup (map wi_key items) /\ fixed_values lf = values_for key items).
  { intros key bits lf (Ep & Ek & _) Ol. destruct (header_values _ _ _ _ _ _ Hw Hh Eq Ep Ol) as (N & F). rewrite Ek in F. auto. }
  destruct (V _ _ _ Fa O1) as (N & Va). destruct (V _ _ _ Fb O2) as (_ & Vb). destruct (V _ _ _ Fc O3) as (_ & Vc). destruct (V _ _ _ Fd O4) as (_ & Vd).
  split; [exact N|].
  destruct (Ft) as (F1 & F2 & F3 & F4). cbn [identification version is_cmd sec_hdr apid] in F1, F2, F3, F4.
  assert (Ka : lf_kind d = A_UINT).
  { destruct Fd as (_ & _ & Eb & _ & _ & [K|K] & _); [exact K|]. unfold leaf_width in W4. rewrite K in W4. congruence. }
  destruct (field_item _ _ _ _ _ items Fa I1 ltac:(lia) N Va ltac:(lia)) as (U1 & B1 & M1); [discriminate|].
  destruct (field_item _ _ _ _ _ items Fb I2 ltac:(lia) N Vb ltac:(lia)) as (U2 & B2 & M2); [discriminate|].
  destruct (field_item _ _ _ _ _ items Fc I3 ltac:(lia) N Vc ltac:(lia)) as (U3 & B3 & M3); [discriminate|].
  destruct (field_item _ _ _ _ _ items Fd I4 ltac:(lia) N Vd ltac:(lia)) as (U4 & B4 & M4); [intros _; exact Ka|].
  exists [t1; t2; t3; t4], its4. split; [rewrite <- E1; reflexivity|]. split; [reflexivity|].
  split; [repeat constructor; try apply U1; try apply U2; try apply U3; apply U4|].
  intros bs L. cbn [identified]. cbv zeta. rewrite B1, B2, B3, B4.
  change (Z.to_nat 3) with 3%nat. change (Z.to_nat 1) with 1%nat. change (Z.to_nat 11) with 11%nat.
  destruct (word_fields bs L) as (Ew & Fw). rewrite Ew.
  specialize (M1 (bits_value (firstn 3 bs))). specialize (M2 (bits_value (firstn 1 (skipn 3 bs)))).
  specialize (M3 (bits_value (firstn 1 (skipn 1 (skipn 3 bs))))). specialize (M4 (bits_value (firstn 11 (skipn 1 (skipn 1 (skipn 3 bs)))))).
  split.
  - intros X. apply message_id_inj in X; [|exact Fw|exact Ft]. unfold identification in X.
    assert (X1 := f_equal version X). assert (X2 := f_equal is_cmd X). assert (X3 := f_equal sec_hdr X). assert (X4 := f_equal apid X).
    cbn [version is_cmd sec_hdr apid] in X1, X2, X3, X4. symmetry in X1, X2, X3, X4.
    split; [exact (proj1 M1 X1)|]. split; [exact (proj1 M2 X2)|]. split; [exact (proj1 M3 X3)|]. split; [exact (proj1 M4 X4)|exact Logic.I].
  - intros Al (Y1 & Y2 & Y3 & Y4 & _). unfold all_given in Al. cbn [firstn] in Al.
    inversion Al as [|? ? A1 Al1]; subst. inversion Al1 as [|? ? A2 Al2]; subst. inversion Al2 as [|? ? A3 Al3]; subst. inversion Al3 as [|? ? A4 _]; subst.
    destruct Fa as (_ & Ka1 & _). destruct Fb as (_ & Kb1 & _). destruct Fc as (_ & Kc1 & _). destruct Fd as (_ & Kd1 & _).
    rewrite Ka1 in A1. rewrite Kb1 in A2. rewrite Kc1 in A3. rewrite Kd1 in A4.
    unfold identification. rewrite (proj2 M1 A1 Y1), (proj2 M2 A2 Y2), (proj2 M3 A3 Y3), (proj2 M4 A4 Y4). reflexivity.
Qed.

(** ** Both runs *)

Lemma runs_recognise : forall names fuel fuel' mn msgs target input fs out fs' out',
  Forall (fun m => grammatical m = true) input -> word target ->
  run fuel (GenerateCfs names) input fs = (out, Ok tt) ->
  run fuel' (GenerateCosmos mn msgs target) input fs' = (out', Ok tt) -> folder_get fs' (target ++ ".txt") = None ->
  exists ms, Forall2 same_module input ms
    /\ forall i m, first_named ms i m -> mod_name m = mn -> one_clause_each ms i m msgs -> quiet_messages ms i m msgs ->
       exists text ps, folder_get out' (target ++ ".txt") = Some text /\ read_telemetry text = Some ps
         /\ Forall2 (fun n p => p_name p = n
              /\ forall cm l ls k w xs items, In (DSequence n cm l) (mod_defs m) -> packet_leaves ms i [] l ls ->
                 In k l -> m_with k = Some w -> header_at w xs items -> Spec_Cfs.fits (identification items) -> header_leaves k xs ls ->
                 exists a b s id, folder_get out (c_name mn ++ "_msgids.h")
                      = Some (a ++ "#define " ++ upper (c_name n) ++ "_MID (0x" ++ s ++ ")" ++ NL ++ b)%string
                   /\ read_hex s = Some id /\ recognises p id (all_given items ls)) msgs ps.
Proof.
  intros names fuel fuel' mn msgs target input fs out fs' out' Hg Wt H H' N.
  destruct (run_bundle _ _ _ _ _ _ _ Hg Wt H' N) as (bun & Ha & R).
  exists (all_modules bun). assert (Sm := proj1 (accepted_same _ _ Ha)). split; [exact Sm|]. intros i m F E O Q.
  destruct (R i m F E O Q) as (text & ps & T1 & T2 & P). exists text, ps. split; [exact T1|]. split; [exact T2|].
  assert (Hm := proj1 F).
  assert (O' : forall n, In n msgs -> forall cm l ls, In (DSequence n cm l) (mod_defs m) -> packet_leaves (all_modules bun) i [] l ls -> Forall one_clause ls).
  { intros n Hn cm l ls Hd Pl. exact (O n cm l ls Hn Hd Pl). }
  clear O Q R H' T1 T2. induction P as [|n p msgs ps (cm & l & ls & Hd & Pl & _ & Pn & _ & It) P IH]; [constructor|].
  constructor; [|apply IH; intros x Hx; apply O'; right; exact Hx].
  split; [exact Pn|]. intros cm' l' ls' k w xs items Hd' Pl' Hk Hw Hh Ft Hl.
  assert (V : forall c x, In (DSequence n c x) (mod_defs m) -> visible (all_modules bun) i (DSequence n c x)).
  { intros c x Hx. exists i, m. split; [apply reach_here|auto]. }
  assert (X := visible_unique _ _ Ha i _ _ (V _ _ Hd) (V _ _ Hd') eq_refl). injection X as <- <-.
  assert (X := leaves_unique _ _ Ha _ _ _ _ _ Pl Pl'). subst ls'.
  destruct (header_recognised _ _ _ _ _ _ It (O' n (or_introl eq_refl) cm l ls Hd Pl) (leaf_widths _ _ _ _ _ Pl) Hw Hh Ft Hl) as (Nd & Rc).
  destruct (header_entry _ _ _ Hh) as (h & He & Ho).
  destruct (Forall2_in_r _ _ _ _ _ _ Sm (nth_error_In _ _ Hm)) as (m0 & Hm0 & S0).
  assert (Hd0 : In (DSequence n cm l) (mod_defs m0)) by (apply (same_sequences _ _ _ _ _ (proj2 (proj2 (proj2 S0)))); exact Hd).
  destruct (mid_written _ _ _ _ _ _ _ _ _ _ _ _ _ Hg H Hm0 Hd0 Hk Hw He Ho Nd Ft) as (a & b & s & Ef & _ & Es).
  exists a, b, s, (message_id (identification items)). destruct S0 as (S0 & _). rewrite <- E, S0. auto.
Qed.
