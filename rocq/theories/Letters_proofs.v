(** * Proofs: the files of c and cfs, letter by letter *)
From Coq Require Import Sorting.Permutation Sorting.Sorted Lia.
From Verif Require Import Base PyNum PyStr Ast Size Processor Bundle Sorter CCommon GenC GenCfs Main Spec_Grammar Spec_Check Spec_Bundle Spec_Gen Spec_Files
  Spec_Text Spec_C Spec_Cfs Spec_Size Spec_Layout Spec_Header Spec_Printed Spec_Rename Spec_Place Spec_Failures Spec_Letters
  Lib_proofs Str_proofs Enum_proofs Text_proofs Field_proofs Gen_proofs Cdata_proofs Run_proofs Bundle_proofs Disk_proofs Cfs_proofs C_proofs Header2_proofs Header3_proofs Valid_proofs
  Printed_proofs Place_proofs Order_files_proofs Inputs_proofs Failures_proofs Files_proofs.
Open Scope string_scope.

(** ** Numerals *)

Lemma digit_cases : forall base c d, digit_value base c = Some d ->
  (48 <= code c <= 57 /\ d = code c - 48 \/ 65 <= code c <= 90 /\ d = code c - 55)%Z.
Proof.
  intros base c d H. unfold digit_value in H. set (n := code c) in *. clearbody n.
  destruct (48 <=? n)%Z eqn:A; destruct (n <=? 57)%Z eqn:B; destruct (65 <=? n)%Z eqn:C; destruct (n <=? 90)%Z eqn:D; cbn [andb] in H;
    match type of H with (if ?x then _ else _) = _ => destruct x eqn:F; [|discriminate] end; injection H as <-; lia.
Qed.

Lemma digit_value_inj : forall base c c' d, digit_value base c = Some d -> digit_value base c' = Some d -> c = c'.
Proof.
  intros base c c' d H H'. apply digit_cases in H, H'. assert (E : code c = code c') by lia.
  unfold code in E. apply N2Z.inj in E. rewrite <- (ascii_N_embedding c), <- (ascii_N_embedding c'), E. reflexivity.
Qed.

Lemma digits_unique : forall base s s' acc v, (2 <= base <= 36)%Z -> (0 <= acc)%Z -> String.length s = String.length s' ->
  read_digits base acc s = Some v -> read_digits base acc s' = Some v -> s = s'.
Proof.
  intros base. induction s as [|c s IH]; intros [|c' s'] acc v B A L H H'; try discriminate L; [reflexivity|].
  cbn [read_digits String.length] in *. injection L as L.
  destruct (digit_value base c) as [d|] eqn:D; [|discriminate]. destruct (digit_value base c') as [d'|] eqn:D'; [|discriminate].
  assert (R := digit_range _ _ _ D). assert (R' := digit_range _ _ _ D').
  destruct (digits_range base s (base * acc + d) v ltac:(lia) ltac:(nia) H) as (X1 & X2). destruct (digits_range base s' (base * acc + d') v ltac:(lia) ltac:(nia) H') as (Y1 & Y2).
  rewrite <- L in Y1, Y2. assert (P : (0 < base ^ Z.of_nat (String.length s))%Z) by (apply Z.pow_pos_nonneg; lia).
  set (q := (base ^ Z.of_nat (String.length s))%Z) in *. clearbody q.
  assert (base * acc + d < base * acc + d' + 1)%Z by (apply (Zmult_lt_reg_r _ _ q); lia).
  assert (base * acc + d' < base * acc + d + 1)%Z by (apply (Zmult_lt_reg_r _ _ q); lia).
  assert (E : d = d') by lia. subst d'. rewrite (digit_value_inj base c c' d) by assumption. f_equal.
  apply (IH s' (base * acc + d)%Z v); try assumption. nia.
Qed.

Lemma digits_shorter : forall base s c s' v, (2 <= base <= 36)%Z -> (String.length s < String.length (String c s'))%nat ->
  read_digits base 0 s = Some v -> read_digits base 0 (String c s') = Some v -> c = "0"%char.
Proof.
  intros base s c s' v B L H H'. cbn [read_digits String.length] in *.
  destruct (digit_value base c) as [d|] eqn:D; [|discriminate]. assert (R := digit_range _ _ _ D).
  destruct (digits_range base s 0 v ltac:(lia) ltac:(lia) H) as (X1 & X2). destruct (digits_range base s' (base * 0 + d) v ltac:(lia) ltac:(lia) H') as (Y1 & Y2).
  assert (P : (base ^ Z.of_nat (String.length s) <= base ^ Z.of_nat (String.length s'))%Z) by (apply Z.pow_le_mono_r; lia).
  assert (Q : (0 < base ^ Z.of_nat (String.length s))%Z) by (apply Z.pow_pos_nonneg; lia).
  assert (d = 0)%Z by nia. subst d. apply (digit_value_inj base _ _ 0%Z); [exact D|].
  unfold digit_value. change (code "0") with 48%Z. cbn -[Z.ltb]. replace (0 <? base)%Z with true by lia. reflexivity.
Qed.

Lemma unsigned_unique : forall base s s' v, (2 <= base <= 36)%Z -> read_unsigned base s = Some v -> read_unsigned base s' = Some v ->
  ((String.length s < String.length s')%nat -> forall r, s' = ("0" ++ r)%string -> r = "") ->
  ((String.length s' < String.length s)%nat -> forall r, s = ("0" ++ r)%string -> r = "") -> s = s'.
Proof.
  intros base s s' v B H H' C C'.
  assert (Z : forall a b, read_unsigned base a = Some v -> read_unsigned base b = Some v -> (String.length a < String.length b)%nat ->
    (forall r, b = ("0" ++ r)%string -> r = "") -> False).
  { intros a b Ha Hb L N. destruct a as [|x a]; [discriminate|]. destruct b as [|y b]; [discriminate|].
    assert (y = "0"%char) by (eapply digits_shorter; [exact B|exact L|exact Ha|exact Hb]). subst y.
    specialize (N b eq_refl). subst b. cbn in L. lia. }
  destruct (Nat.lt_trichotomy (String.length s) (String.length s')) as [L|[L|L]].
  - destruct (Z s s' H H' L (C L)).
  - destruct s as [|x s]; [discriminate|]. destruct s' as [|y s']; [discriminate|]. eapply digits_unique; [exact B| |exact L|exact H|exact H']. lia.
  - destruct (Z s' s H' H L (C' L)).
Qed.

Lemma hexadecimal_unique : forall w z s s', hexadecimal w z s -> hexadecimal w z s' -> s = s'.
Proof.
  intros w z s s' (d & -> & R & L & C) (d' & -> & R' & L' & C'). f_equal. rewrite !string_length_app in *.
  apply (unsigned_unique 16 d d' (Z.abs z)); [lia|exact R|exact R'| |]; intros Q; [apply C'|apply C]; lia.
Qed.

Lemma unsigned_range : forall s v, read_unsigned 10 s = Some v -> (0 <= v)%Z /\ (v = 0%Z -> exists r, s = ("0" ++ r)%string).
Proof.
  intros [|c s] v H; [discriminate|]. unfold read_unsigned in H. cbn [read_digits] in H.
  destruct (digit_value 10 c) as [d|] eqn:D; [|discriminate]. assert (R := digit_range _ _ _ D).
  destruct (digits_range 10 s (10 * 0 + d) v ltac:(lia) ltac:(lia) H) as (X1 & X2).
  assert (Q : (0 < 10 ^ Z.of_nat (String.length s))%Z) by (apply Z.pow_pos_nonneg; lia).
  split; [nia|]. intros ->. assert (d = 0)%Z by nia. subst d. exists s. rewrite (digit_value_inj 10 c "0" 0%Z); [reflexivity|exact D|reflexivity].
Qed.

Lemma read_int_cases : forall s z, read_int s = Some z ->
  (exists r v, s = ("-" ++ r)%string /\ read_unsigned 10 r = Some v /\ z = (- v)%Z) \/ read_unsigned 10 s = Some z.
Proof.
  intros s z H. destruct s as [|c r]; [right; exact H|]. unfold read_int in H.
  destruct (Ascii.eqb_spec c "-") as [->|N].
  - left. destruct (read_unsigned 10 r) as [v|] eqn:E; [|discriminate]. injection H as <-. exists r, v. auto.
  - right. destruct c as [[] [] [] [] [] [] [] []]; try exact H. congruence.
Qed.

Lemma decimal_unique : forall z s s', decimal z s -> decimal z s' -> s = s'.
Proof.
  intros z s s' (R & C) (R' & C').
  assert (NZ : forall a r v, decimal z a -> a = ("-" ++ r)%string -> read_unsigned 10 r = Some v -> z = (- v)%Z -> (0 < v)%Z).
  { intros a r v (_ & Ca) -> Hr Ev. destruct (unsigned_range _ _ Hr) as (P & Q). destruct (Z.eq_dec v 0) as [->|N]; [|lia].
    destruct (Q eq_refl) as (r' & ->). destruct (Ca "-" r' (or_intror eq_refl) eq_refl) as (X & _). discriminate. }
  destruct (read_int_cases _ _ R) as [(r & v & E & Hr & Ev)|U]; destruct (read_int_cases _ _ R') as [(r' & v' & E' & Hr' & Ev')|U'].
  - assert (v' = v) by lia. subst v' s s'. f_equal. apply (unsigned_unique 10 r r' v); [lia|exact Hr|exact Hr'| |]; intros _ q ->.
    + destruct (C' "-" q (or_intror eq_refl) eq_refl) as (X & _). discriminate.
    + destruct (C "-" q (or_intror eq_refl) eq_refl) as (X & _). discriminate.
  - assert (P := NZ s r v (conj R C) E Hr Ev). destruct (unsigned_range _ _ U'). lia.
  - assert (P := NZ s' r' v' (conj R' C') E' Hr' Ev'). destruct (unsigned_range _ _ U). lia.
  - apply (unsigned_unique 10 s s' z); [lia|exact U|exact U'| |]; intros _ q E.
    + apply (C' "" q (or_introl eq_refl) E).
    + apply (C "" q (or_introl eq_refl) E).
Qed.

(** ** Pieces *)

Lemma Forall2_unique : forall A B (R : A -> B -> Prop) l, (forall a b b', In a l -> R a b -> R a b' -> b = b') ->
  forall l1 l2, Forall2 R l l1 -> Forall2 R l l2 -> l1 = l2.
Proof.
  intros A B R l. induction l as [|a l IH]; intros U l1 l2 F1 F2; inversion F1; inversion F2; subst; [reflexivity|].
  f_equal; [eapply U; [left; reflexivity|eassumption..]|]. apply IH; [|assumption..]. intros x b b' H. apply U. right. exact H.
Qed.

Lemma c_value_unique : forall v s s', c_value v s -> c_value v s' -> s = s'.
Proof. intros [z|f|b|w] s s' H H'; cbn [c_value] in *; [exact (decimal_unique _ _ _ H H')|congruence..|contradiction]. Qed.
Lemma shows_unique : forall v s s', shows v s -> shows v s' -> s = s'.
Proof. intros [z|f|b|w] s s' H H'; cbn [shows] in *; [exact (decimal_unique _ _ _ H H')|congruence..|contradiction]. Qed.

Lemma mirrors_unique : forall l t, mirrors l t -> forall t', mirrors l t' -> t = t'.
Proof.
  intros l t M. induction M as [|k v cm r s t V M IH|k w cm r sub t M1 IH1 M2 IH2]; intros t' M'; inversion M' as [|k' v' cm' r' s' u V' M1'|k' w' cm' r' sub' u M1' M2']; subst.
  - reflexivity.
  - rewrite (c_value_unique _ _ _ V V'), (IH _ M1'). reflexivity.
  - destruct V.
  - match goal with H : c_value (VWith _) _ |- _ => destruct H end.
  - rewrite (IH1 _ M1'), (IH2 _ M2'). reflexivity.
Qed.

Lemma initialises_unique : forall x s s', initialises x s -> initialises x s' -> s = s'.
Proof.
  intros ((n & k) & w) s s' (b & t & -> & _ & M & ->) (b' & t' & -> & _ & M' & ->). rewrite (mirrors_unique _ _ M _ M'). reflexivity.
Qed.

Lemma header_number_unique : forall w z z', header_number w z -> header_number w z' -> z = z'.
Proof.
  intros w z z' H H'. apply Z.bits_inj'. intros i Hi. specialize (H i Hi). specialize (H' i Hi). rewrite <- H' in H.
  destruct (Z.testbit z i), (Z.testbit z' i); auto; [symmetry; apply H; reflexivity|apply H; reflexivity].
Qed.

Lemma defines_unique : forall n e d d', defines n e d -> defines n e d' -> d = d'.
Proof.
  intros n e [a b c] [a' b' c'] (N & H) (N' & H'). cbn [df_name df_value df_newline] in *. subst a a'. destruct e as [k v|w].
  - destruct H as (-> & s & -> & S), H' as (-> & s' & -> & S'). rewrite (shows_unique _ _ _ S S'). reflexivity.
  - destruct H as (-> & s & -> & (z & Z & S) & _), H' as (-> & s' & -> & (z' & Z' & S') & _).
    rewrite (header_number_unique _ _ _ Z Z') in S. rewrite (hexadecimal_unique _ _ _ _ S S'). reflexivity.
Qed.

Lemma value_size_unique : forall t w w', value_size t w -> value_size t w' -> w = w'.
Proof.
  intros t w w' H H'. inversion H; subst; inversion H'; subst; try reflexivity; try lia; try contradiction; try tauto.
  - eapply least_width_unique; eassumption.
  - match goal with A : smallest _ _ w, B : smallest _ _ w' |- _ => destruct A as (A1 & A2 & A3), B as (B1 & B2 & B3) end.
    apply Z.le_antisymm; auto.
Qed.

Lemma note_unique : forall cmd input d s s', note_printed cmd input d s -> note_printed cmd input d s' -> s = s'.
Proof.
  intros cmd input d s s' H H'.
  destruct H as [d S|names n t c E|names e n t c E N1 N2|names e n t c E N|names n t c E U|names n t c us w E Ne Nd So Iff W];
  inversion H' as [d' S'|names' n' t' c' E'|names' e' n' t' c' E' N1' N2'|names' e' n' t' c' E' N'|names' n' t' c' E' U'|names' n' t' c' us' w' E' Ne' Nd' So' Iff' W'];
    subst; try reflexivity; try discriminate; try congruence; try (destruct N; contradiction); try (destruct N'; contradiction).
  - exfalso. destruct us' as [|x us']; [congruence|]. destruct (proj1 (Iff' x) (or_introl eq_refl)) as (m & M & _ & T). exact (U m M T).
  - exfalso. destruct us as [|x us]; [congruence|]. destruct (proj1 (Iff x) (or_introl eq_refl)) as (m & M & _ & T). exact (U' m M T).
  - rewrite (value_size_unique _ _ _ W W'). assert (us = us') as ->; [|reflexivity]. apply Inputs_proofs.sorted_unique; auto.
    intros x. rewrite Iff, Iff'. reflexivity.
Qed.

Lemma members_said_unique : forall ds l, NoDup (map def_name ds) -> forall fs fs', Forall2 (member_said ds) l fs -> Forall2 (member_said ds) l fs' -> fs = fs'.
Proof.
  intros ds l ND. apply Forall2_unique. intros k f f' _ (K1 & K2 & K3) (K1' & K2' & K3').
  destruct (type_said_unique ds _ ND _ _ _ _ K3 K3') as (A & B). destruct f, f'; simpl in *. congruence.
Qed.

Lemma printed_unique : forall ds d p p', NoDup (map def_name ds) ->
  definition_printed ds d (fst p) (snd p) -> definition_printed ds d (fst p') (snd p') -> p = p'.
Proof.
  intros ds d [x s] [y s'] ND H H'. cbn [fst snd] in *.
  destruct H as [n c l fs F|n c l l' R|n c l|n t c]; inversion H' as [? ? ? fs' F'|? ? ? l'' R'| |]; subst; try reflexivity.
  - rewrite (members_said_unique _ _ ND _ _ F F'). reflexivity.
  - rewrite (renumbered_unique _ _ _ R R'). reflexivity.
Qed.

(** ** Files *)

Lemma header_unique : forall cmd input m s s', NoDup (map def_name (definitions input)) -> is_header cmd input m s -> is_header cmd input m s' -> s = s'.
Proof.
  intros cmd input m s s' ND (o & p & st & ns & R & N & D & S & ->) (o' & p' & st' & ns' & R' & N' & D' & S' & ->).
  assert (o' = o) by (eapply one_order; eassumption). subst o'.
  assert (ns' = ns) by (eapply Forall2_unique; [|exact N'|exact N]; intros a b b' _; apply note_unique). subst ns'.
  assert (p' = p) by (eapply Forall2_unique; [|exact D'|exact D]; intros a b b' _; apply printed_unique; exact ND). subst p'.
  destruct S as [(-> & S)|(-> & S)], S' as [(-> & S')|(-> & S')]; try reflexivity; contradiction.
Qed.

Lemma source_unique : forall m s s', is_source m s -> is_source m s' -> s = s'.
Proof.
  intros m s s' (o & i & ts & R & T & I & ->) (o' & i' & ts' & R' & T' & I' & ->).
  assert (o' = o) by (eapply one_order; eassumption). subst o'.
  assert (ts' = ts) by (eapply Forall2_unique; [|exact T'|exact T]; intros a b b' _; apply initialises_unique). subst ts'.
  destruct I as [(S & ->)|(S & ->)], I' as [(S' & ->)|(S' & ->)]; try reflexivity; contradiction.
Qed.

Lemma msgids_unique : forall m s s', is_ids_header m s -> is_ids_header m s' -> s = s'.
Proof.
  intros m s s' (o & ds & g & R & D & -> & ->) (o' & ds' & g' & R' & D' & -> & ->).
  assert (o' = o) by (eapply one_order; eassumption). subst o'.
  assert (ds' = ds) by (eapply Forall2_unique; [|exact D'|exact D]; intros a b b' _; apply defines_unique). subst ds'. reflexivity.
Qed.

Lemma ends_dec : forall l, ends_with_clause l \/ ~ ends_with_clause l.
Proof.
  induction l as [|d l [E|E]].
  - right. intros (a & d & b & Q & _). destruct a; discriminate.
  - left. destruct E as (a & x & b & -> & H). exists (d :: a), x, b. split; [reflexivity|exact H].
  - assert (D : def_clauses d = [] \/ def_clauses d <> []) by (destruct (def_clauses d); [left; reflexivity|right; discriminate]).
    destruct D as [D|D]; [|destruct (forallb is_simple l) eqn:F].
    + right. intros (a & x & b & Q & N & S). destruct a as [|y a]; injection Q as -> ->; [contradiction|]. apply E. exists a, x, b. auto.
    + left. exists [], d, l. split; [reflexivity|]. split; [exact D|]. apply Forall_forall. intros x X. rewrite forallb_forall in F. apply F, X.
    + right. intros (a & x & b & Q & N & S). destruct a as [|y a]; injection Q as -> ->; [|apply E; exists a, x, b; auto].
      assert (forallb is_simple b = true) by (apply forallb_forall; rewrite Forall_forall in S; exact S). congruence.
Qed.

Lemma msgids_in_rounds : forall names fuel input fs fs' m,
  Forall (fun m => grammatical m = true) input -> run fuel (GenerateCfs names) input fs = (fs', Ok tt) -> In m input ->
  exists text, folder_get fs' (c_name (mod_name m) ++ "_msgids.h") = Some text /\ is_ids_header m text.
Proof.
  intros names fuel input fs fs' m Hg H Hm.
  destruct (run_input_written names (GenerateCfs names) fuel input fs fs' m) as (b & bm & fl & C & Hbm & S & Hfl & R);
    [left; reflexivity|assumption|assumption|assumption|].
  cbn [module_files] in Hfl. apply bind_ok in Hfl. destruct Hfl as (c & Hc & E). injection E as <-.
  assert (X : exists sorted, sorted_definitions fuel (bm_mod bm) = Ok sorted
    /\ Forall2 (fun ne d => defines (fst ne) (snd ne) d) (flat_map def_entries sorted) (cd_defines c)).
  { unfold cfs_cdata in Hc. apply module_collects in Hc; [|apply cfs_wch_includes].
    destruct Hc as (sorted & css & iss & Hs & F & -> & _). exists sorted. split; [exact Hs|].
    clear Hs. induction F as [|d cs sorted css H0 F IH]; [constructor|]. cbn [flat_map concat].
    rewrite flat_map_app. apply Forall2_app; [|exact IH]. eapply clauses_entries; [|exact H0|reflexivity]. auto. }
  destruct X as (sorted & Hs & F). assert (P := sorted_perm _ _ _ Hs). destruct (order_of_input _ _ _ S P) as (order & P' & F').
  assert (Sn : bm_name bm = mod_name m) by apply S.
  assert (Gm : grammatical m = true) by (rewrite Forall_forall in Hg; apply Hg, Hm).
  assert (GN : is_name_lower (mod_name m) = true) by (unfold grammatical in Gm; repeat (apply andb_prop in Gm; destruct Gm as [Gm ?]); exact Gm).
  eexists. split.
  - apply R. right. left. unfold msgids_filename. rewrite Sn, <- string_app_assoc. reflexivity.
  - exists order, (cd_defines c). eexists. split; [eapply config_in_rounds; eassumption|]. split; [|split; [reflexivity|]].
    + assert (E : flat_map def_entries sorted = flat_map def_entries order).
      { clear - F'. induction F' as [|d d' l l' H F IH]; [reflexivity|]. simpl. rewrite IH, (same_entries _ _ H). reflexivity. }
      rewrite <- E. exact F.
    + assert (G := guard_text (mod_name m) "_msgids.h" "_MSGIDS_H" GN eq_refl).
      change ("_MSGIDS_H" ++ "_INCLUDED")%string with "_MSGIDS_H_INCLUDED" in G. rewrite <- G.
      unfold render_header, guard_open, guard_close, file_header, msgids_filename. cbn [is_msgids is_stored_data].
      rewrite <- ?string_app_assoc. cbn [String.eqb].
      assert (L : concat_map_str (fun d => render_define d ++ NL)%string (cd_defines c) = String.concat "" (map define_line (cd_defines c))).
      { change (String.concat "" (map define_line (cd_defines c))) with (concat_map_str define_line (cd_defines c)).
        clear. induction (cd_defines c) as [|d ds IH]; [reflexivity|]. rewrite !concat_map_str_cons, IH. f_equal.
        unfold render_define, define_line. rewrite <- ?string_app_assoc.
        destruct (df_newline d); cbn [append]; rewrite ?string_app_nil; reflexivity. }
      destruct (cd_defines c) as [|d ds]; [reflexivity|]. cbn [is_nil]. rewrite L, <- ?string_app_assoc. reflexivity.
Qed.

Lemma run_names : forall names cmd fuel input fs fs', config_command names cmd ->
  Forall (fun m => grammatical m = true) input -> run fuel cmd input fs = (fs', Ok tt) -> NoDup (map def_name (definitions input)).
Proof. intros names cmd fuel input fs fs' HC Hg HR. exact (bv_names _ _ (Valid_proofs.run_valid names cmd fuel input fs fs' HC Hg HR)). Qed.

Theorem headers_exact : forall names cmd fuel input fs fs' m text, config_command names cmd ->
  Forall (fun m => grammatical m = true) input -> run fuel cmd input fs = (fs', Ok tt) -> In m input ->
  (folder_get fs' (header_name cmd (mod_name m)) = Some text <-> is_header cmd input m text).
Proof.
  intros names cmd fuel input fs fs' m text HC Hg HR Hm. assert (ND := run_names _ _ _ _ _ _ HC Hg HR).
  destruct (headers_in_rounds names cmd fuel input fs fs' m HC Hg HR Hm) as (o & p & st & ns & R & E & N & D & S).
  assert (I : is_header cmd input m (header_text cmd m o st ns (map snd p))) by (exists o, p, st, ns; auto 10).
  rewrite E. split; [intros Q; injection Q as <-; exact I|]. intros I'. f_equal. eapply header_unique; eassumption.
Qed.

Theorem sources_exact : forall names fuel input fs fs' m text,
  Forall (fun m => grammatical m = true) input -> run fuel (GenerateC names) input fs = (fs', Ok tt) -> In m input ->
  (folder_get fs' (c_name (mod_name m) ++ ".c") = Some text <-> is_source m text).
Proof.
  intros names fuel input fs fs' m text Hg HR Hm.
  destruct (sources_in_rounds names fuel input fs fs' m Hg HR Hm) as (o & i & ts & R & T & I1 & I2 & E).
  assert (I : is_source m (source_head m ++ i ++ String.concat "" ts)).
  { exists o, i, ts. split; [exact R|]. split; [exact T|]. split; [|reflexivity]. destruct (ends_dec o) as [Q|Q]; [left|right]; auto. }
  rewrite E. split; [intros Q; injection Q as <-; exact I|]. intros I'. f_equal. eapply source_unique; eassumption.
Qed.

Theorem msgids_exact : forall names fuel input fs fs' m text,
  Forall (fun m => grammatical m = true) input -> run fuel (GenerateCfs names) input fs = (fs', Ok tt) -> In m input ->
  (folder_get fs' (c_name (mod_name m) ++ "_msgids.h") = Some text <-> is_ids_header m text).
Proof.
  intros names fuel input fs fs' m text Hg HR Hm. destruct (msgids_in_rounds names fuel input fs fs' m Hg HR Hm) as (t & E & I).
  rewrite E. split; [intros Q; injection Q as <-; exact I|]. intros I'. f_equal. eapply msgids_unique; eassumption.
Qed.

(** ** The whole folder *)

Lemma other_file : forall names cmd fuel input fs fs' f, config_command names cmd ->
  Forall (fun m => grammatical m = true) input -> run fuel cmd input fs = (fs', Ok tt) -> (forall m, In m input -> ~ file_of cmd m f) ->
  folder_get fs' f = folder_get fs f.
Proof.
  intros names cmd fuel input fs fs' f Hc Hg R N. destruct (run_contents _ _ _ _ _ _ Hc Hg R) as (b & files & C & -> & _ & _ & X).
  rewrite folder_get_all. replace (dict_get f files) with (@None string); [reflexivity|]. symmetry. apply dict_get_None.
  intros H. apply in_map_iff in H as (x & <- & H). apply X in H as (bm & fl & Hbm & Hfl & H).
  destruct (of_input _ _ _ _ C Hbm) as (m & Hin & S). apply (N m Hin).
  apply (one_files names input cmd Hg Hc b (proj2 C) bm m Hbm S fuel fl Hfl). apply in_map. exact H.
Qed.

Lemma file_of_dec : forall names cmd input f, cmd = GenerateC names \/ cmd = GenerateCfs names ->
  (exists m, In m input /\ file_of cmd m f) \/ forall m, In m input -> ~ file_of cmd m f.
Proof.
  intros names cmd input f Hc. induction input as [|m l [(x & X & H)|H]]; [right; intros m []|left; exists x; split; [right|]; assumption|].
  assert (D : file_of cmd m f \/ ~ file_of cmd m f).
  { destruct Hc as [-> | ->]; cbn [file_of].
    - destruct (string_dec f (c_name (mod_name m) ++ ".h")); [tauto|]. destruct (string_dec f (c_name (mod_name m) ++ ".c")); tauto.
    - destruct (string_dec f (c_name (mod_name m) ++ "_msg.h")); [tauto|]. destruct (string_dec f (c_name (mod_name m) ++ "_msgids.h")); tauto. }
  destruct D as [D|D]; [left; exists m; split; [left; reflexivity|exact D]|right]. intros x [<-|X]; [exact D|exact (H x X)].
Qed.

Theorem folder_exact : forall names cmd fuel input fs fs', cmd = GenerateC names \/ cmd = GenerateCfs names ->
  Forall (fun m => grammatical m = true) input -> run fuel cmd input fs = (fs', Ok tt) ->
  forall f text, folder_get fs' f = Some text <->
    (exists m, In m input /\ file_text cmd input m f text)
    \/ ((forall m, In m input -> ~ file_of cmd m f) /\ folder_get fs f = Some text).
Proof.
  intros names cmd fuel input fs fs' Hc Hg HR f text.
  assert (Hc' : config_command names cmd) by (destruct Hc as [-> | ->]; [right; left|left]; reflexivity).
  assert (M : forall m, In m input -> file_of cmd m f -> (folder_get fs' f = Some text -> file_text cmd input m f text)).
  { intros m Hm F E. destruct Hc as [-> | ->]; cbn [file_of file_text] in *; destruct F as [-> | ->].
    - left. split; [reflexivity|]. eapply (headers_exact names (GenerateC names)); eassumption.
    - right. split; [reflexivity|]. eapply sources_exact; eassumption.
    - left. split; [reflexivity|]. eapply (headers_exact names (GenerateCfs names)); eassumption.
    - right. split; [reflexivity|]. eapply msgids_exact; eassumption. }
  split.
  - intros E. destruct (file_of_dec names cmd input f Hc) as [(m & Hm & F)|N]; [left; exists m; auto|right].
    split; [exact N|]. rewrite <- (other_file _ _ _ _ _ _ f Hc' Hg HR N). exact E.
  - intros [(m & Hm & T)|(N & E)]; [|rewrite (other_file _ _ _ _ _ _ f Hc' Hg HR N); exact E].
    destruct Hc as [-> | ->]; cbn [file_text] in T; destruct T as [(-> & T)|(-> & T)].
    + eapply (headers_exact names (GenerateC names)); eassumption.
    + eapply sources_exact; eassumption.
    + eapply (headers_exact names (GenerateCfs names)); eassumption.
    + eapply msgids_exact; eassumption.
Qed.
