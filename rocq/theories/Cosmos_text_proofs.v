(** * Proofs: COSMOS text *)
From Coq Require Import ZifyBool ZifyNat ZifyN Lia.
From Verif Require Import Base PyNum PyStr Ast Size Processor Bundle GenCosmos Main Lib_proofs Spec_Enum
  Spec_Grammar Spec_Num Spec_Check Check_proofs Spec_Bundle Bundle_proofs Str_proofs Name_proofs
  Spec_Size Accept_proofs Spec_Text Text_proofs Files_proofs Spec_Cosmos Cosmos_proofs Float_proofs.
Open Scope string_scope.

(** ** Characters *)

Definition pchar (c : ascii) : bool := negb (Ascii.eqb c " ") && negb (Ascii.eqb c DQ) && negb (Ascii.eqb c LF).

Lemma all_chars_has : forall f s, all_chars f s = true <-> forall c, has_char c s -> f c = true.
Proof.
  intros f. induction s as [|a s IH]; simpl; [split; [intros _ c []|reflexivity]|].
  rewrite andb_true_iff, IH. unfold has_char. simpl. split.
  - intros (A & B) c [<-|H]; auto.
  - intros H. split; [apply H; left; reflexivity|]. intros c Hc. apply H. right. exact Hc.
Qed.

Lemma has_char_app : forall c a b, has_char c (a ++ b) <-> has_char c a \/ has_char c b.
Proof.
  intros c. induction a as [|x a IH]; intros b; unfold has_char in *; simpl; [tauto|]. rewrite IH. tauto.
Qed.

Lemma pchar_plain : forall s, all_chars pchar s = true <-> plain s.
Proof.
  intros s. rewrite all_chars_has. unfold plain, pchar. split.
  - intros H. repeat split; intros X; apply H in X; discriminate.
  - intros (A & B & C) c Hc. rewrite !andb_true_iff, !negb_true_iff. repeat split; apply Ascii.eqb_neq; congruence.
Qed.

Lemma pchar_codes : forall c, pchar c = true <-> (N_of_ascii c <> 32 /\ N_of_ascii c <> 34 /\ N_of_ascii c <> 10)%N.
Proof.
  intros c. unfold pchar. rewrite !ascii_eqb_N. change (N_of_ascii " ") with 32%N. change (N_of_ascii LF) with 10%N.
  change (N_of_ascii DQ) with 34%N. lia.
Qed.

Lemma all_chars_app : forall f a b, all_chars f (a ++ b) = all_chars f a && all_chars f b.
Proof. intros f. induction a as [|x a IH]; intros b; simpl; [reflexivity|]. rewrite IH. apply andb_assoc. Qed.

Lemma plain_app : forall a b, plain a -> plain b -> plain (a ++ b).
Proof. intros a b A B. apply pchar_plain. rewrite all_chars_app. apply pchar_plain in A, B. rewrite A, B. reflexivity. Qed.

Lemma digits_plain : forall b s acc z, read_digits b acc s = Some z -> (b <= 16)%Z -> all_chars pchar s = true.
Proof.
  intros b. induction s as [|c s IH]; intros acc z H Hb; [reflexivity|]. simpl in H.
  destruct (digit_value b c) as [d|] eqn:E; [|discriminate]. simpl. apply andb_true_intro. split; [|exact (IH _ _ H Hb)].
  apply pchar_codes. unfold digit_value, code in E.
  destruct ((48 <=? Z.of_N (N_of_ascii c)) && (Z.of_N (N_of_ascii c) <=? 57))%Z eqn:E1; [lia|].
  destruct ((65 <=? Z.of_N (N_of_ascii c)) && (Z.of_N (N_of_ascii c) <=? 90))%Z eqn:E2; [lia|].
  rewrite Z.ltb_irrefl in E. discriminate.
Qed.

Lemma int_word : forall s z, read_int s = Some z -> word s.
Proof.
  intros s z H. split; [intros ->; discriminate|]. apply pchar_plain.
  assert (U : forall s z, read_unsigned 10 s = Some z -> all_chars pchar s = true).
  { clear. intros s z H. destruct s; [discriminate|]. eapply digits_plain; [exact H|lia]. }
  destruct s as [|c s]; [discriminate|]. unfold read_int in H.
  assert (D : c = "-"%char \/ c <> "-"%char) by (destruct (ascii_dec c "-"); auto).
  destruct D as [->|D].
  - destruct (read_unsigned 10 s) as [z'|] eqn:E; [|discriminate]. exact (U _ _ E).
  - apply (U _ z). rewrite <- H. destruct c as [[] [] [] [] [] [] [] []]; try reflexivity. congruence.
Qed.

Lemma str_of_Z_word : forall z, word (str_of_Z z).
Proof. intros z. exact (int_word _ z (read_str_of_Z z)). Qed.

Lemma hex_plain : forall z, plain (hex_digits z).
Proof.
  intros z. assert (E : hex_digits z = hex_digits (Z.abs z)) by (unfold hex_digits; f_equal; f_equal; f_equal; lia).
  rewrite E. apply pchar_plain. eapply digits_plain; [apply (read_hex_digits 0 (Z.abs z)); [lia|reflexivity]|lia].
Qed.

Lemma repeat_char : forall c d n, has_char d (repeat_str n (String c "")) -> d = c.
Proof.
  intros c d n H. induction n as [|n IH]; [destruct H|]. cbn [repeat_str] in H. apply has_char_app in H.
  destruct H as [[H|[]]|H]; [congruence|auto].
Qed.

Lemma apid_text : forall z, word ("0x" ++ format_X 2 z).
Proof.
  intros z. split; [discriminate|]. apply plain_app; [apply pchar_plain; reflexivity|].
  assert (R : forall n, plain (repeat_str n "0")).
  { intros n. apply pchar_plain, all_chars_has. intros c Hc. apply repeat_char in Hc. subst. reflexivity. }
  unfold format_X. destruct (z <? 0)%Z; repeat apply plain_app; auto using hex_plain; apply pchar_plain; reflexivity.
Qed.

Lemma lower_word : forall s, is_name_lower s = true -> word s.
Proof.
  intros s H. split; [intros ->; discriminate|]. apply pchar_plain. destruct (lower_chars _ H) as (c & r & -> & Hc & Hr).
  simpl. apply andb_true_intro. split.
  - apply pchar_codes. apply lower_codes in Hc. lia.
  - revert Hr. apply all_chars_impl. intros x Hx. apply pchar_codes. apply nchar_codes in Hx. lia.
Qed.

Lemma value_word : forall v, wval_ok v = true -> (forall w, v <> VWith w) -> word (str_value v).
Proof.
  intros v Hv Hn. destruct v as [z|f|b|w]; [apply str_of_Z_word| | |exfalso; eapply Hn; reflexivity].
  - cbn [wval_ok] in Hv. destruct (float_ok_chars f Hv) as [A B]. split.
    + exact B.
    + apply pchar_plain. revert A. apply all_chars_impl. intros c H. apply pchar_codes. unfold float_char, is_digit, is_lower in H.
      rewrite !ascii_eqb_N in H. change (N_of_ascii ".") with 46%N in H. change (N_of_ascii "+") with 43%N in H.
      change (N_of_ascii "-") with 45%N in H. lia.
  - destruct b; (split; [discriminate|apply pchar_plain; reflexivity]).
Qed.

Lemma comment_no_LF : forall c, comment_opt_ok c = true -> ~ has_char LF (text_of c).
Proof.
  intros [c|] H X; [|destruct X]. unfold comment_opt_ok, comment_ok in H. apply andb_prop in H. destruct H as [H _].
  rewrite all_chars_has in H. apply H in X. discriminate.
Qed.

(** ** Lines *)

Lemma blank_repeat : forall n, blank (repeat_str n " " ++ " ").
Proof.
  intros n. split; [destruct n; discriminate|]. intros c H. apply has_char_app in H.
  destruct H as [H|[H|[]]]; [|congruence]. apply repeat_char in H. exact H.
Qed.

Lemma blank_repeat' : forall n, blank (" " ++ repeat_str n " ").
Proof.
  intros n. split; [discriminate|]. intros c H. apply has_char_app in H.
  destruct H as [[H|[]]|H]; [congruence|]. apply repeat_char in H. exact H.
Qed.

Lemma blank_app : forall a b, blank a -> blank b -> blank (a ++ b).
Proof.
  intros a b (A & A') (B & B'). split.
  - destruct a; [congruence|discriminate].
  - intros c H. apply has_char_app in H. destruct H; auto.
Qed.

Lemma rsn_app : forall s c r, ~ has_char LF s -> c <> LF -> c <> " "%char ->
  replace_space_nl (s ++ String c r) = s ++ String c (replace_space_nl r).
Proof.
  intros s c r. induction s as [|a s IH]; intros Hs H1 H2.
  - simpl. apply Ascii.eqb_neq in H2. rewrite H2. destruct r; reflexivity.
  - assert (Hs' : ~ has_char LF s) by (intros X; apply Hs; right; exact X).
    specialize (IH Hs' H1 H2). destruct s as [|b s].
    + cbn [append replace_space_nl] in *. rewrite IH. apply Ascii.eqb_neq in H1. rewrite H1, andb_false_r. reflexivity.
    + cbn [append replace_space_nl] in *. rewrite IH.
      assert (Hb : b <> LF) by (intros ->; apply Hs; right; left; reflexivity).
      apply Ascii.eqb_neq in Hb. rewrite Hb, andb_false_r. reflexivity.
Qed.

Lemma rsn_tail : forall s b, ~ has_char LF s ->
  replace_space_nl (s ++ DQUOTE ++ " " ++ (if b : bool then "LITTLE_ENDIAN" else "") ++ NL)
  = s ++ DQUOTE ++ (if b then " LITTLE_ENDIAN" else "") ++ NL.
Proof.
  intros s b H. unfold DQUOTE. cbn [append]. rewrite rsn_app; [|exact H|discriminate|discriminate].
  destruct b; reflexivity.
Qed.

Lemma word_no_LF : forall s, word s -> ~ has_char LF s.
Proof. intros s (_ & _ & _ & H). exact H. Qed.
Lemma blank_no_LF : forall s, blank s -> ~ has_char LF s.
Proof. intros s (_ & H) X. apply H in X. discriminate. Qed.

Definition entry_fields (e : entry) : fields :=
  mkfields (id_or_array e) (te_name e) (str_of_Z (te_bits e)) (cosmos_type (te_type e)) (cosmos_value e)
           (te_comment e) (te_little e).

Lemma keyword_word : forall e, word (id_or_array e).
Proof.
  intros e. unfold id_or_array. destruct (te_array e); [|destruct (String.eqb (cosmos_value e) "")];
    (split; [discriminate|apply pchar_plain; reflexivity]).
Qed.

Lemma item_line_text : forall e, word (te_name e) -> ~ has_char LF (te_comment e) -> ~ has_char LF (cosmos_value e) ->
  item_line e = INDENT ++ ljust 19 (id_or_array e) ++ " " ++ ljust 31 (te_name e) ++ " " ++ rjust 7 (str_of_Z (te_bits e)) ++ " "
    ++ ljust 7 (cosmos_type (te_type e)) ++ " " ++ rjust 7 (cosmos_value e) ++ " " ++ DQUOTE ++ te_comment e ++ DQUOTE
    ++ (if te_little e then " LITTLE_ENDIAN" else "") ++ NL.
Proof.
  intros e Hn Hc Hv.
  assert (HT : word (cosmos_type (te_type e))) by (destruct (te_type e); (split; [discriminate|apply pchar_plain; reflexivity])).
  assert (HK := keyword_word e). assert (HB := str_of_Z_word (te_bits e)).
  assert (B1 : blank " ") by (apply (blank_repeat 0)).
  assert (BI : blank INDENT) by (split; [discriminate|]; intros c [<-|[<-|[<-|[<-|[]]]]]; reflexivity).
  unfold item_line, ljust, rjust. rewrite <- !string_app_assoc.
  assert (L1 : forall a, blank a -> ~ has_char LF a) by apply blank_no_LF.
  set (s1 := repeat_str (19 - String.length (id_or_array e)) " ").
  set (s2 := repeat_str (31 - String.length (te_name e)) " ").
  set (s3 := repeat_str (7 - String.length (str_of_Z (te_bits e))) " ").
  set (s4 := repeat_str (7 - String.length (cosmos_type (te_type e))) " ").
  set (s5 := repeat_str (7 - String.length (cosmos_value e)) " ").
  assert (R := rsn_tail (INDENT ++ id_or_array e ++ s1 ++ " " ++ te_name e ++ s2 ++ " " ++ s3 ++ str_of_Z (te_bits e) ++ " "
    ++ cosmos_type (te_type e) ++ s4 ++ " " ++ s5 ++ cosmos_value e ++ " " ++ DQUOTE ++ te_comment e) (te_little e)).
  rewrite <- !string_app_assoc in R. rewrite R; [reflexivity|]. clear R.
  assert (RL : forall n, ~ has_char LF (repeat_str n " ")) by (intros n X; apply repeat_char in X; discriminate).
  rewrite !has_char_app. intros X.
  assert (Q : ~ has_char LF DQUOTE) by (intros [Y|[]]; discriminate).
  assert (Q1 := L1 _ B1). assert (Q2 := L1 _ BI). assert (Q3 := word_no_LF _ HK). assert (Q4 := word_no_LF _ HT).
  assert (Q5 := word_no_LF _ HB). assert (Q6 := word_no_LF _ Hn).
  pose proof (RL (19 - String.length (id_or_array e))%nat). pose proof (RL (31 - String.length (te_name e))%nat).
  pose proof (RL (7 - String.length (str_of_Z (te_bits e)))%nat). pose proof (RL (7 - String.length (cosmos_type (te_type e)))%nat).
  pose proof (RL (7 - String.length (cosmos_value e))%nat). unfold s1, s2, s3, s4, s5 in X. tauto.
Qed.

Lemma ljust_left : forall n s, at_left n s (ljust n s).
Proof.
  intros n s. exists (repeat_str (n - String.length s) " "). split; [reflexivity|]. split; [intros c H; apply repeat_char in H; exact H|].
  unfold ljust. rewrite string_length_app, Text_proofs.repeat_str_length. lia.
Qed.
Lemma rjust_right : forall n s, at_right n s (rjust n s).
Proof.
  intros n s. exists (repeat_str (n - String.length s) " "). split; [reflexivity|]. split; [intros c H; apply repeat_char in H; exact H|].
  unfold rjust. rewrite string_length_app, Text_proofs.repeat_str_length. lia.
Qed.

Lemma item_line_columns : forall e, word (te_name e) -> ~ has_char LF (te_comment e) -> ~ has_char LF (cosmos_value e) ->
  in_columns (item_line e) (entry_fields e).
Proof.
  intros e Hn Hc Hv. exists (ljust 19 (id_or_array e)), (ljust 31 (te_name e)), (rjust 7 (str_of_Z (te_bits e))),
    (ljust 7 (cosmos_type (te_type e))), (rjust 7 (cosmos_value e)).
  split; [apply ljust_left|]. split; [apply ljust_left|]. split; [apply rjust_right|]. split; [apply ljust_left|].
  split; [apply rjust_right|]. exact (item_line_text e Hn Hc Hv).
Qed.

Lemma item_line_laid_out : forall e, word (te_name e) -> ~ has_char LF (te_comment e) -> ~ has_char LF (cosmos_value e) ->
  laid_out (item_line e) (entry_fields e).
Proof.
  intros e Hn Hc Hv. unfold laid_out. cbn [fd_keyword fd_name fd_bits fd_type fd_value fd_comment fd_little entry_fields].
  assert (HT : word (cosmos_type (te_type e))) by (destruct (te_type e); (split; [discriminate|apply pchar_plain; reflexivity])).
  assert (HK := keyword_word e). assert (HB := str_of_Z_word (te_bits e)).
  split; [exact HK|]. split; [exact Hn|]. split; [exact HB|]. split; [exact HT|]. split; [exact Hc|].
  exists INDENT, (repeat_str (19 - String.length (id_or_array e)) " " ++ " "),
    ((repeat_str (31 - String.length (te_name e)) " " ++ " ") ++ repeat_str (7 - String.length (str_of_Z (te_bits e))) " "),
    " ", ((repeat_str (7 - String.length (cosmos_type (te_type e))) " " ++ " ") ++ repeat_str (7 - String.length (cosmos_value e)) " "), " ".
  assert (BR : forall n k, blank ((repeat_str n " " ++ " ") ++ repeat_str k " ")).
  { intros n k. rewrite <- string_app_assoc. destruct n as [|n]; [apply blank_repeat'|].
    rewrite string_app_assoc. destruct (blank_repeat (S n)) as (A & B). split; [discriminate|].
    intros c H. apply has_char_app in H. destruct H as [H|H]; [apply B; exact H|]. apply repeat_char in H. exact H. }
  assert (B1 : blank " ") by (apply (blank_repeat 0)).
  assert (BI : blank INDENT) by (split; [discriminate|]; intros c [<-|[<-|[<-|[<-|[]]]]]; reflexivity).
  split; [exact BI|]. split; [apply blank_repeat|]. split; [apply BR|].
  split; [exact B1|]. split; [apply BR|]. split; [exact B1|].
  unfold item_line, ljust, rjust. rewrite <- !string_app_assoc.
  assert (L1 : forall a, blank a -> ~ has_char LF a) by apply blank_no_LF.
  set (s1 := repeat_str (19 - String.length (id_or_array e)) " ").
  set (s2 := repeat_str (31 - String.length (te_name e)) " ").
  set (s3 := repeat_str (7 - String.length (str_of_Z (te_bits e))) " ").
  set (s4 := repeat_str (7 - String.length (cosmos_type (te_type e))) " ").
  set (s5 := repeat_str (7 - String.length (cosmos_value e)) " ").
  assert (R := rsn_tail (INDENT ++ id_or_array e ++ s1 ++ " " ++ te_name e ++ s2 ++ " " ++ s3 ++ str_of_Z (te_bits e) ++ " "
    ++ cosmos_type (te_type e) ++ s4 ++ " " ++ s5 ++ cosmos_value e ++ " " ++ DQUOTE ++ te_comment e) (te_little e)).
  rewrite <- !string_app_assoc in R. rewrite R; [reflexivity|]. clear R.
  assert (RL : forall n, ~ has_char LF (repeat_str n " ")) by (intros n X; apply repeat_char in X; discriminate).
  rewrite !has_char_app. intros X.
  assert (Q : ~ has_char LF DQUOTE) by (intros [Y|[]]; discriminate).
  assert (Q1 := L1 _ B1). assert (Q2 := L1 _ BI). assert (Q3 := word_no_LF _ HK). assert (Q4 := word_no_LF _ HT).
  assert (Q5 := word_no_LF _ HB). assert (Q6 := word_no_LF _ Hn).
  pose proof (RL (19 - String.length (id_or_array e))%nat). pose proof (RL (31 - String.length (te_name e))%nat).
  pose proof (RL (7 - String.length (str_of_Z (te_bits e)))%nat). pose proof (RL (7 - String.length (cosmos_type (te_type e)))%nat).
  pose proof (RL (7 - String.length (cosmos_value e))%nat). unfold s1, s2, s3, s4, s5 in X. tauto.
Qed.

(** ** Reading a line back *)

Lemma span_unique : forall (f : ascii -> bool) x x' c c' r r',
  all_chars f x = true -> all_chars f x' = true -> f c = false -> f c' = false ->
  x ++ String c r = x' ++ String c' r' -> x = x' /\ String c r = String c' r'.
Proof.
  intros f. induction x as [|a x IH]; intros x' c c' r r' Hx Hx' Hc Hc' E; destruct x' as [|a' x']; simpl in *.
  - auto.
  - injection E as -> _. apply andb_prop in Hx'. destruct Hx'. congruence.
  - injection E as <- _. apply andb_prop in Hx. destruct Hx. congruence.
  - injection E as <- E. apply andb_prop in Hx, Hx'. destruct Hx as [_ Hx], Hx' as [_ Hx'].
    destruct (IH _ _ _ _ _ Hx Hx' Hc Hc' E) as (-> & Er). auto.
Qed.

Definition is_space (c : ascii) : bool := Ascii.eqb c " ".

Lemma blank_chars : forall a, blank a -> all_chars is_space a = true.
Proof. intros a (_ & H). apply all_chars_has. intros c Hc. apply H in Hc. subst. reflexivity. Qed.

Lemma word_head : forall w, word w -> exists c r, w = String c r /\ is_space c = false /\ c <> DQ.
Proof.
  intros w (N & P). apply pchar_plain in P. destruct w as [|c r]; [congruence|]. exists c, r. split; [reflexivity|].
  simpl in P. apply andb_prop in P. destruct P as [P _]. unfold pchar in P. apply andb_prop in P. destruct P as [P _].
  apply andb_prop in P. destruct P as [P Q]. apply negb_true_iff in P, Q. apply Ascii.eqb_neq in Q. auto.
Qed.

Lemma blank_head : forall a, blank a -> exists r, a = String " " r.
Proof.
  intros a (N & H). destruct a as [|c r]; [congruence|]. exists r. rewrite (H c (or_introl eq_refl)). reflexivity.
Qed.

Lemma word_unique : forall a a' w w' b b' r r', blank a -> blank a' -> word w -> word w' -> blank b -> blank b' ->
  a ++ w ++ b ++ r = a' ++ w' ++ b' ++ r' -> w = w' /\ b ++ r = b' ++ r'.
Proof.
  intros a a' w w' b b' r r' Ba Ba' Ww Ww' Bb Bb' E.
  destruct (word_head _ Ww) as (c & x & Ew & Hc & _). destruct (word_head _ Ww') as (c' & x' & Ew' & Hc' & _).
  assert (E1 : w ++ b ++ r = w' ++ b' ++ r').
  { rewrite Ew, Ew' in *. cbn [append] in E.
    destruct (span_unique is_space _ _ _ _ _ _ (blank_chars _ Ba) (blank_chars _ Ba') Hc Hc' E) as (_ & X). exact X. }
  destruct (blank_head _ Bb) as (y & Eb). destruct (blank_head _ Bb') as (y' & Eb').
  rewrite Eb, Eb' in *. cbn [append] in *.
  destruct Ww as (_ & Pw). destruct Ww' as (_ & Pw'). apply pchar_plain in Pw, Pw'.
  apply (span_unique pchar _ _ " "%char " "%char _ _ Pw Pw' eq_refl eq_refl E1).
Qed.

(** Leaving out the spaces. *)
Fixpoint squeeze (s : string) : string :=
  match s with
  | "" => ""
  | String c r => if is_space c then squeeze r else String c (squeeze r)
  end.
Lemma squeeze_app : forall a b, squeeze (a ++ b) = squeeze a ++ squeeze b.
Proof. induction a as [|c a IH]; intros b; [reflexivity|]. simpl. rewrite IH. destruct (is_space c); reflexivity. Qed.
Lemma squeeze_blank : forall a, blank a -> squeeze a = "".
Proof.
  intros a B. apply blank_chars in B. induction a as [|c a IH]; [reflexivity|]. simpl in *. apply andb_prop in B. destruct B as [B1 B2].
  rewrite B1. auto.
Qed.
Lemma squeeze_plain : forall a, plain a -> squeeze a = a.
Proof.
  intros a (P & _). induction a as [|c a IH]; [reflexivity|]. simpl.
  destruct (is_space c) eqn:E.
  - exfalso. apply P. left. apply Ascii.eqb_eq in E. exact E.
  - f_equal. apply IH. intros X. apply P. right. exact X.
Qed.

Lemma comment_unique : forall c c' (l l' : bool),
  c ++ DQUOTE ++ (if l then " LITTLE_ENDIAN" else "") ++ NL = c' ++ DQUOTE ++ (if l' then " LITTLE_ENDIAN" else "") ++ NL ->
  c = c' /\ l = l'.
Proof.
  assert (D : forall c c', c ++ DQUOTE ++ " LITTLE_ENDIAN" ++ NL = c' ++ DQUOTE ++ NL -> False).
  { intros c c' E. rewrite !string_app_assoc in E. apply string_app_inv_r in E.
    change " LITTLE_ENDIAN" with (" LITTLE_ENDIA" ++ "N") in E. rewrite !string_app_assoc in E.
    apply string_app_inv_len in E; [destruct E as (_ & E); discriminate|].
    assert (L := f_equal String.length E). rewrite !string_length_app in L. rewrite !string_length_app. cbn in *. lia. }
  intros c c' [|] [|] E.
  - apply string_app_inv_r in E. auto.
  - exfalso. exact (D _ _ E).
  - exfalso. exact (D _ _ (eq_sym E)).
  - apply string_app_inv_r in E. auto.
Qed.

Lemma read_back : forall s f f', laid_out s f -> laid_out s f' -> plain (fd_value f) -> plain (fd_value f') -> f = f'.
Proof.
  intros s f f' (K & Nm & Bt & Ty & Cm & a0 & a1 & a2 & a3 & a4 & a5 & B0 & B1 & B2 & B3 & B4 & B5 & E)
    (K' & Nm' & Bt' & Ty' & Cm' & a0' & a1' & a2' & a3' & a4' & a5' & B0' & B1' & B2' & B3' & B4' & B5' & E') P P'.
  rewrite E in E'. clear E s. rename E' into E.
  destruct (word_unique _ _ _ _ _ _ _ _ B0 B0' K K' B1 B1' E) as (E1 & X1).
  destruct (word_unique _ _ _ _ _ _ _ _ B1 B1' Nm Nm' B2 B2' X1) as (E2 & X2).
  destruct (word_unique _ _ _ _ _ _ _ _ B2 B2' Bt Bt' B3 B3' X2) as (E3 & X3).
  destruct (word_unique _ _ _ _ _ _ _ _ B3 B3' Ty Ty' B4 B4' X3) as (E4 & X4).
  clear X1 X2 X3 E.
  set (nq := fun c => negb (Ascii.eqb c DQ)).
  assert (NQ : forall a v b, blank a -> plain v -> blank b -> all_chars nq (a ++ v ++ b) = true).
  { intros a v b Ha Hv Hb. apply all_chars_has. intros c H. unfold nq. apply negb_true_iff, Ascii.eqb_neq. intros ->.
    apply has_char_app in H. rewrite has_char_app in H. destruct Ha as (_ & Ha), Hb as (_ & Hb), Hv as (_ & Hv & _).
    destruct H as [H|[H|H]]; [apply Ha in H; discriminate|exact (Hv H)|apply Hb in H; discriminate]. }
  assert (Y : (a4 ++ fd_value f ++ a5) ++ String DQ (fd_comment f ++ DQUOTE ++ (if fd_little f then " LITTLE_ENDIAN" else "") ++ NL)
    = (a4' ++ fd_value f' ++ a5') ++ String DQ (fd_comment f' ++ DQUOTE ++ (if fd_little f' then " LITTLE_ENDIAN" else "") ++ NL)).
  { rewrite <- !string_app_assoc. exact X4. }
  destruct (span_unique nq _ _ DQ DQ _ _ (NQ _ _ _ B4 P B5) (NQ _ _ _ B4' P' B5') eq_refl eq_refl Y) as (Z1 & Z2).
  assert (E5 : fd_value f = fd_value f').
  { assert (Q := f_equal squeeze Z1). rewrite !squeeze_app, !(squeeze_blank _ B4), !(squeeze_blank _ B5), !(squeeze_blank _ B4'),
      !(squeeze_blank _ B5'), !squeeze_plain in Q by assumption. cbn [append] in Q. rewrite !string_app_nil in Q. exact Q. }
  injection Z2 as Z2. destruct (comment_unique _ _ _ _ Z2) as (E6 & E7).
  clear - E1 E2 E3 E4 E5 E6 E7. destruct f as [x1 x2 x3 x4 x5 x6 x7], f' as [y1 y2 y3 y4 y5 y6 y7].
  cbn [fd_keyword fd_name fd_bits fd_type fd_value fd_comment fd_little] in *. congruence.
Qed.

(** ** Where values come from *)

Lemma wcomps_items : forall w, wcomps_ok w = true -> Forall (fun i => witem_ok i = true) (wc_items w).
Proof.
  intros [c l] H. cbn [wcomps_ok] in H. apply andb_prop in H. destruct H as [_ H]. cbn [wc_items].
  induction l as [|i l IH]; [constructor|]. apply andb_prop in H. destruct H as [H1 H2]. constructor; [exact H1|]. apply IH. exact H2.
Qed.

Lemma witem_value : forall i, witem_ok i = true -> wval_ok (wi_value i) = true.
Proof. intros [k v c] H. cbn [witem_ok] in H. apply andb_prop in H. destruct H as [H _]. apply andb_prop in H. apply H. Qed.

Lemma component_ok : forall w i, component_of w i -> wcomps_ok w = true -> witem_ok i = true.
Proof.
  intros w i H. induction H as [w i H|w k w' c i H _ IH]; intros Hw; apply wcomps_items in Hw; rewrite Forall_forall in Hw.
  - apply Hw. exact H.
  - apply IH. apply Hw in H. apply witem_value in H. exact H.
Qed.

Lemma component_trans : forall w i, component_of w i -> forall k w' c, i = WI k (VWith w') c ->
  forall j, In j (wc_items w') -> component_of w j.
Proof.
  intros w i H. induction H as [w i H|w k w' c i H _ IH]; intros k1 w1 c1 E j Hj.
  - subst i. eapply comp_nested; [exact H|]. apply comp_here. exact Hj.
  - eapply comp_nested; [exact H|]. eapply IH; eassumption.
Qed.

Section Components.
Variable ds : list definition.

Definition known (l : list witem) : Prop := Forall (component_in ds) l.
Definition state_known (st : cstate) : Prop := Forall (fun x => known (snd x)) st.

Lemma state_get_known : forall st mi di k l, state_known st -> state_get st mi di k = Some l -> known l.
Proof.
  induction st as [|[[[a b] c] x] st IH]; intros mi di k l H E; [discriminate|]. inversion H as [|? ? H1 H2]; subst. cbn [state_get] in E.
  destruct (Nat.eqb a mi && Nat.eqb b di && Nat.eqb c k); [injection E as <-; exact H1|eapply IH; eassumption].
Qed.

Lemma given_known : forall wc k v, known wc -> given_value wc k = Some v ->
  exists i, component_in ds i /\ wi_key i = k /\ wi_value i = v.
Proof.
  intros wc k v H E. unfold given_value in E. destruct (filter (fun c => String.eqb (wi_key c) k) wc) as [|c [|]] eqn:F; try discriminate.
  injection E as <-. assert (X : In c wc /\ String.eqb (wi_key c) k = true) by (apply (filter_In (fun c => String.eqb (wi_key c) k)); rewrite F; left; reflexivity).
  destruct X as (X & Y). unfold known in H. rewrite Forall_forall in H. exists c. split; [apply H; exact X|].
  split; [apply String.eqb_eq; exact Y|reflexivity].
Qed.

Lemma nested_known : forall i w, component_in ds i -> wi_value i = VWith w -> known (wc_items w).
Proof.
  intros [k v c] w (d & m & w0 & Hd & Hm & Ew & C) E. cbn in E. subst v. apply Forall_forall. intros j Hj. exists d, m, w0.
  split; [exact Hd|]. split; [exact Hm|]. split; [exact Ew|]. eapply component_trans; [exact C|reflexivity|exact Hj].
Qed.

Lemma hand_down_known : forall st mi di k m wc down st' d, state_known st -> In d ds -> In m (members_of d) -> known wc ->
  hand_down st mi di k m (given_value wc (m_key m)) = (down, st') -> known down /\ state_known st'.
Proof.
  intros st mi di k m wc down st' d Hs Hd Hm Hw H. unfold hand_down in H.
  assert (O : forall o, own_components st mi di k m = Some o -> known o).
  { intros o E. unfold own_components in E. destruct (m_with m) as [w|] eqn:Ew; [|discriminate].
    destruct (state_get st mi di k) as [l|] eqn:G; injection E as <-.
    - eapply state_get_known; eassumption.
    - apply Forall_forall. intros i Hi. exists d, m, w. split; [exact Hd|]. split; [exact Hm|]. split; [exact Ew|]. apply comp_here. exact Hi. }
  assert (I : forall i, match given_value wc (m_key m) with Some (VWith w) => Some (wc_items w) | _ => None end = Some i -> known i).
  { intros i E. destruct (given_value wc (m_key m)) as [[| | |w]|] eqn:G; try discriminate. injection E as <-.
    destruct (given_known _ _ _ Hw G) as (x & C & _ & Ev). eapply nested_known; eassumption. }
  destruct (own_components st mi di k m) as [o|];
    destruct (match given_value wc (m_key m) with Some (VWith w) => Some (wc_items w) | _ => None end) as [i|]; injection H as <- <-.
  - assert (X : known (o ++ i)%list) by (apply Forall_app; split; [apply O|apply I]; reflexivity).
    split; [exact X|]. constructor; [exact X|exact Hs].
  - split; [apply O; reflexivity|exact Hs].
  - split; [apply I; reflexivity|exact Hs].
  - split; [constructor|exact Hs].
Qed.
End Components.

Section Accepted.
Variables (input : list module) (bun : bundle).
Hypothesis Hg : Forall (fun m => grammatical m = true) input.
Hypothesis Ha : accepted input bun.
Let ms := all_modules bun.

(** The value of an entry is that of a component of some clause. *)
Definition has_origin (e : entry) : Prop :=
  exists m w given, te_name e = m_key m /\ te_array e = is_array (m_type m) /\ value_given m w given e
    /\ forall v, given = Some v -> exists i, component_in (all_defs bun) i /\ wi_key i = m_key m /\ wi_value i = v.

Lemma items_origin : forall fuel i d wc st es st', visible_ref ms i d -> known (all_defs bun) wc -> state_known (all_defs bun) st ->
  items_of fuel bun i d wc st = Ok (es, st') -> Forall has_origin es /\ state_known (all_defs bun) st'.
Proof.
  induction fuel as [|fuel IH]; intros i d wc st es st' V Hw Hs H; [discriminate|].
  assert (Hd := visible_defs bun _ _ (visible_ref_visible _ _ _ V)).
  destruct (dr_def d) as [n c l|n c l|n c l|n t c] eqn:E; try (cbn [items_of] in H; rewrite E in H; discriminate).
  rewrite (items_of_sequence _ _ _ _ _ _ _ _ _ E) in H.
  assert (Hl : forall m, In m l -> In m (members_of (DSequence n c l))) by auto. revert Hl H.
  generalize O at 1. generalize l at 1 3. intros r. revert st es st' Hs. induction r as [|m r IHr]; intros st es st' Hs k Hl H.
  - injection H as <- <-. split; [constructor|exact Hs].
  - cbn [go_members] in H. destruct (hand_down st _ _ k m (given_value wc (m_key m))) as [down st1] eqn:HD.
    apply bind_ok in H. destruct H as (info & Hi & H). apply bind_ok in H. destruct H as ((es1 & st2) & H1 & H).
    apply bind_ok in H. destruct H as ((es2 & st3) & H2 & H). injection H as <- <-.
    assert (Hm : In m (members_of (DSequence n c l))) by (apply Hl; left; reflexivity).
    destruct (hand_down_known _ _ _ _ _ _ _ _ _ _ Hs Hd Hm Hw HD) as (Hw1 & Hs1).
    assert (X : Forall has_origin es1 /\ state_known (all_defs bun) st2).
    { destruct info as [d'|states ct bg en].
      - destruct (member_info_nested _ _ Hg Ha _ _ _ _ _ Hd Hm Hi) as (_ & Vr). exact (IH _ _ _ _ _ _ Vr Hw1 Hs1 H1).
      - apply bind_ok in H1. destruct H1 as (e & He & H1). injection H1 as <- <-. split; [|exact Hs1]. constructor; [|constructor].
        destruct (leaf_entry_inv _ _ _ _ _ _ _ He) as (c' & w & x & _ & _ & _ & Vg & _). exists m, w, (given_value wc (m_key m)).
        unfold leaf_entry in He. destruct ct as [ct|]; [|discriminate]. apply bind_ok in He. destruct He as (y1 & _ & He).
        apply bind_ok in He. destruct He as (y2 & _ & He). apply bind_ok in He. destruct He as (y3 & _ & He).
        split; [injection He as <-; reflexivity|]. split; [injection He as <-; cbn [te_array]; destruct (m_type m); reflexivity|].
        split; [exact Vg|]. intros v Ev. exact (given_known _ _ _ _ Hw Ev). }
    destruct X as (X1 & X2). destruct (IHr _ _ _ X2 _ (fun x Hx => Hl x (or_intror Hx)) H2) as (Y1 & Y2).
    split; [apply Forall_app; auto|exact Y2].
Qed.

Lemma packets_origin : forall fuel i m msgs st ps, nth_error ms i = Some m -> state_known (all_defs bun) st ->
  packets fuel bun i msgs st = Ok ps -> Forall (fun p => Forall has_origin (pk_entries p)) ps.
Proof.
  intros fuel i m msgs. induction msgs as [|n r IH]; intros st ps Hm Hs H; cbn [packets] in H.
  - injection H as <-. constructor.
  - destruct (dict_get n _) as [d|] eqn:E; [|discriminate]. destruct (message_ref _ _ Ha _ _ _ _ Hm E) as (V & En & Hd).
    apply bind_ok in H. destruct H as ((es & st') & Hi & H). apply bind_ok in H. destruct H as (rest & Hr & H). injection H as <-.
    destruct (items_origin _ _ _ _ _ _ _ V (Forall_nil _) Hs Hi) as (X & Hs'). constructor; [exact X|]. eapply IH; eassumption.
Qed.

Lemma component_value_ok : forall i, component_in (all_defs bun) i -> wval_ok (wi_value i) = true.
Proof.
  intros i (d & m & w & Hd & Hm & Ew & C). apply witem_value. eapply component_ok; [exact C|].
  destruct (accepted_member _ _ _ _ Hg Ha Hd Hm) as (Hok & _). unfold member_ok in Hok. rewrite Ew in Hok. apply andb_prop in Hok. apply Hok.
Qed.

Lemma origin_no_LF : forall e, has_origin e -> ~ has_char LF (te_value e).
Proof.
  intros e (m & w & given & _ & _ & Vg & O). unfold value_given in Vg.
  assert (Y : te_value e = match given with Some v => str_value v | None => "" end -> ~ has_char LF (te_value e)).
  { intros ->. destruct given as [v|]; [|intros []]. destruct (O v eq_refl) as (i & C & _ & <-). apply component_value_ok in C.
    destruct (wi_value i) as [z|f|b|w']; try (apply word_no_LF, value_word; [exact C|discriminate]).
    intros A. repeat (destruct A as [A|A]; [discriminate A|]). destruct A. }
  assert (Z : apid_value given = Ok (te_value e) -> ~ has_char LF (te_value e)).
  { intros A. destruct given as [[z|f|b|w']|]; try discriminate A; injection A as <-; apply word_no_LF, apid_text. }
  destruct (m_type m); try (destruct (String.eqb (m_key m) COSMOS_KEY_APID); auto; fail).
  rewrite Vg. apply word_no_LF, str_of_Z_word.
Qed.

Lemma packets_no_LF : forall fuel i m msgs ps, nth_error ms i = Some m -> packets fuel bun i msgs [] = Ok ps ->
  Forall (fun p => Forall (fun e => ~ has_char LF (te_value e)) (pk_entries p)) ps.
Proof.
  intros fuel i m msgs ps Hm H. assert (X := packets_origin _ _ _ _ [] _ Hm (Forall_nil _) H). revert X. apply Forall_impl. intros p.
  apply Forall_impl. exact origin_no_LF.
Qed.

Lemma origin_unmentioned : forall lf e, shows lf e -> has_origin e -> unmentioned_item (definitions ms) lf (entry_fields e).
Proof.
  intros lf e S (m & w & given & En & Ea & Vg & O) K A U. rewrite (sh_name _ _ S) in En. rewrite (sh_array _ _ S) in Ea.
  assert (given = None).
  { destruct given as [v|]; [|reflexivity]. destruct (O v eq_refl) as (i & C & Ek & _). exfalso. apply (U i C). congruence. }
  subst given. assert (V : te_value e = "").
  { unfold value_given in Vg. rewrite A in Ea. destruct (m_type m); try discriminate Ea;
      destruct (String.eqb (m_key m) COSMOS_KEY_APID); try discriminate Vg; exact Vg. }
  cbn [fd_keyword fd_value entry_fields]. unfold id_or_array, cosmos_value. rewrite (sh_array _ _ S), A, (sh_kind _ _ S), V.
  destruct (lf_kind lf); try congruence; split; reflexivity.
Qed.

(** ** Members of leaves *)

Lemma leaves_members : forall (P : member -> Prop), (forall d k, In d (all_defs bun) -> In k (members_of d) -> P k) ->
  forall i p l ls, packet_leaves ms i p l ls -> Forall P p -> Forall P l ->
  Forall (fun lf => Forall P (lf_path lf) /\ P (lf_member lf)) ls.
Proof.
  intros P HP i p l ls H. induction H as [p|p m r u c w s ls I H IH|p m n cm l r ls ls' E V H1 IH1 H2 IH2]; intros Fp Fl.
  - constructor.
  - inversion Fl as [|? ? F1 F2]; subst. constructor; [split; [exact Fp|exact F1]|apply IH; assumption].
  - inversion Fl as [|? ? F1 F2]; subst. apply Forall_app. split; [|apply IH2; assumption].
    apply IH1; [apply Forall_app; split; [exact Fp|constructor; auto]|]. apply Forall_forall. intros k Hk.
    apply (HP (DSequence n cm l)); [apply (visible_defs bun i); exact V|exact Hk].
Qed.

Lemma leaves_ok : forall i m n cm l ls, nth_error ms i = Some m -> In (DSequence n cm l) (mod_defs m) -> packet_leaves ms i [] l ls ->
  Forall (fun lf => Forall (fun k => member_ok k = true) (lf_path lf) /\ member_ok (lf_member lf) = true) ls.
Proof.
  intros i m n cm l ls Hm Hd P.
  assert (M : forall d k, In d (all_defs bun) -> In k (members_of d) -> member_ok k = true).
  { intros d k Hdd Hk. apply (accepted_member _ _ _ _ Hg Ha Hdd Hk). }
  apply (leaves_members _ M _ _ _ _ P); [constructor|]. apply Forall_forall. intros k Hk.
  apply (M (DSequence n cm l)); [|exact Hk]. apply in_flat_map. exists m. split; [eapply nth_error_In; exact Hm|exact Hd].
Qed.

Lemma clauses_ok : forall p, Forall (fun k => member_ok k = true) p -> Forall (Forall (fun i => witem_ok i = true)) (clauses_at p).
Proof.
  intros p. induction p as [|m p IH] using rev_ind; intros H; [constructor|]. rewrite clauses_snoc.
  apply Forall_app in H. destruct H as (H1 & H2). inversion H2 as [|? ? Hm _]; subst. apply Forall_app. split.
  - unfold own_clause. destruct (m_with m) as [w|] eqn:E; [|constructor]. constructor; [|constructor]. apply wcomps_items.
    unfold member_ok in Hm. rewrite E in Hm. apply andb_prop in Hm. apply Hm.
  - specialize (IH H1). rewrite Forall_forall in *. intros l Hl. apply in_flat_map in Hl. destruct Hl as (x & Hx & Hl).
    unfold narrow in Hl. apply in_flat_map in Hl. destruct Hl as ([k' v cc] & Hi & Hl). destruct v as [| | |w]; try (destruct Hl; fail).
    destruct (String.eqb k' (m_key m)); [|destruct Hl]. destruct Hl as [<-|[]]. apply wcomps_items.
    apply IH in Hx. rewrite Forall_forall in Hx. apply Hx in Hi. cbn [witem_ok wval_ok] in Hi.
    apply andb_prop in Hi. destruct Hi as [Hi _]. apply andb_prop in Hi. apply Hi.
Qed.

Lemma fixed_ok : forall lf v, Forall (fun k => member_ok k = true) (lf_path lf) -> In v (fixed_values lf) -> wval_ok v = true.
Proof.
  intros lf v H Hv. apply clauses_ok in H. unfold fixed_values in Hv. apply in_flat_map in Hv. destruct Hv as (l & Hl & Hv).
  rewrite Forall_forall in H. apply H in Hl. unfold values_for in Hv. apply in_map_iff in Hv. destruct Hv as (i & <- & Hi).
  apply filter_In in Hi. destruct Hi as (Hi & _). rewrite Forall_forall in Hl. apply Hl in Hi.
  destruct i as [k v c]. cbn [witem_ok] in Hi. apply andb_prop in Hi. destruct Hi as [Hi _]. apply andb_prop in Hi. apply Hi.
Qed.

(** ** Texts of entries *)

Lemma lines_of_states_eq : forall l k, exists ts, state_lines (Z.of_nat k) l = String.concat "" ts /\ length ts = length l
  /\ forall i s t, nth_error l i = Some s -> nth_error ts i = Some t -> line_of_state s (Z.of_nat (k + i)) t.
Proof.
  induction l as [|s l IH]; intros k.
  - exists []. split; [reflexivity|]. split; [reflexivity|]. intros [|i] s t; discriminate.
  - destruct (IH (S k)) as (ts & E & L & H).
    exists ((INDENT ++ INDENT ++ "STATE " ++ ljust 31 s ++ " " ++ str_of_Z (Z.of_nat k) ++ NL) :: ts).
    split; [|split].
    + cbn [state_lines]. replace (Z.of_nat k + 1)%Z with (Z.of_nat (S k)) by lia. rewrite E.
      destruct ts as [|t ts].
      * cbn [String.concat]. rewrite !string_app_nil. reflexivity.
      * cbn [String.concat]. rewrite <- !string_app_assoc. reflexivity.
    + cbn [length]. rewrite L. reflexivity.
    + intros [|i] s' t Hs Ht; cbn [nth_error] in *.
      * injection Hs as <-. injection Ht as <-. rewrite Nat.add_0_r. exists (ljust 31 s).
        split; [apply ljust_left|]. reflexivity.
      * replace (k + S i)%nat with (S k + i)%nat by lia. eapply H; eassumption.
Qed.

Lemma cosmos_type_name : forall c, cosmos_type c = kind_name c.
Proof. intros []; reflexivity. Qed.

Lemma entry_text_leaf : forall (Q : leaf -> fields -> Prop) lf e, shows lf e -> member_ok (lf_member lf) = true ->
  ~ has_char LF (te_value e) -> Q lf (entry_fields e) -> text_of_leaf Q lf (entry_text e).
Proof.
  intros Q lf e S Hm Hv HQ.
  unfold member_ok in Hm. apply andb_prop in Hm. destruct Hm as [Hm _]. apply andb_prop in Hm. destruct Hm as [Hm Hc].
  apply andb_prop in Hm. destruct Hm as [Hk _].
  destruct (lines_of_states_eq (te_states e) 0) as (ts & Et & Lt & Ht). cbn [Z.of_nat] in Et.
  exists (item_line e), ts, (limits_line (te_range e)), (units_line (te_unit e)).
  split; [unfold entry_text; rewrite Et; reflexivity|]. split; [|split; [|split]].
  - exists (entry_fields e). split; [|split; [exact (sh_name _ _ S)|]].
    + cut (word (te_name e) /\ ~ has_char LF (te_comment e) /\ ~ has_char LF (cosmos_value e));
        [intros (H1 & H2 & H3); split; [apply item_line_laid_out|apply item_line_columns]; assumption|]. split; [|split].
      * rewrite (sh_name _ _ S). apply lower_word. exact Hk.
      * rewrite (sh_comment _ _ S). apply comment_no_LF. exact Hc.
      * unfold cosmos_value. destruct (te_type e); try exact Hv. destruct (String.eqb (te_value e) "True"); intros [X|[]]; discriminate.
    + split; [cbn; rewrite (sh_bits _ _ S); reflexivity|].
      split; [cbn; rewrite (sh_kind _ _ S); apply cosmos_type_name|].
      split; [exact (sh_comment _ _ S)|]. split; [exact (sh_little _ _ S)|exact HQ].
  - rewrite <- (sh_states _ _ S). split; [exact Lt|exact Ht].
  - assert (L := sh_limits _ _ S). unfold limits in L. unfold text_of_limits.
    destruct (lf_values lf) as [[[b en]|]|r| | |k n|n t|n]; try (rewrite L; reflexivity).
    destruct L as (L1 & L2). split; intros F; [rewrite (L1 F); reflexivity|]. rewrite (L2 F). reflexivity.
  - rewrite <- (sh_unit _ _ S). unfold units_line, text_of_unit. destruct (String.eqb_spec (te_unit e) ""); auto.
Qed.

(** Values as shown. *)
Lemma shown_value : forall lf e, shows lf e -> shows_value lf e -> one_clause lf ->
  Forall (fun k => member_ok k = true) (lf_path lf) -> fixed_value lf (entry_fields e).
Proof.
  intros lf e S V O Hp. assert (OK := fun v => fixed_ok lf v Hp). destruct O as (_ & O).
  assert (NW : forall v, In v (fixed_values lf) -> forall w, v <> VWith w) by (intros v Hv w ->; exact (O w Hv)).
  assert (PT : forall v, In v (fixed_values lf) -> word (plain_text v)).
  { intros v Hv. assert (W := value_word v (OK v Hv) (NW v Hv)). destruct v; try exact W. exfalso. exact (O _ Hv). }
  assert (VW : te_value e = "" \/ word (te_value e)).
  { unfold shows_value in V.
    assert (X : (if String.eqb (m_key (lf_member lf)) "application-process-identifier"
      then exists v z, fixed_values lf = [v] /\ z = match v with VInt z => z | VBool true => 1%Z | _ => 0%Z end
             /\ (forall f, v <> VFloat f) /\ te_value e = ("0x" ++ format_X 2 z)%string
      else match fixed_values lf with [] => te_value e = ""%string | v :: _ => te_value e = plain_text v end) ->
      te_value e = "" \/ word (te_value e)).
    { destruct (String.eqb _ _).
      - intros (v & z & _ & _ & _ & ->). right. apply apid_text.
      - destruct (fixed_values lf) as [|v r]; intros ->; [left; reflexivity|right; apply PT; left; reflexivity]. }
    destruct (m_type (lf_member lf)); try exact (X V). rewrite V. right. apply str_of_Z_word. }
  unfold fixed_value. cbn [fd_value fd_keyword entry_fields]. split.
  { unfold cosmos_value. destruct (te_type e); try (destruct (String.eqb (te_value e) "True"); apply pchar_plain; reflexivity);
      destruct VW as [->|(_ & X)]; try exact X; apply pchar_plain; reflexivity. }
  assert (K := sh_kind _ _ S). assert (A := sh_array _ _ S).
  unfold id_or_array. rewrite A. unfold cosmos_value. rewrite K. clear A.
  destruct (m_type (lf_member lf)) as [r|r| | |k n|n t|n] eqn:Et; cbn [is_array]; unfold shows_value in V; rewrite Et in V;
    [| | | | |destruct (lf_kind lf); auto|];
    destruct (lf_kind lf);
    try (destruct (fixed_values lf) as [|[z|f|b|w] rest]; try exact I; intros Ea; rewrite Ea in V; rewrite V;
         destruct b; split; reflexivity);
    (destruct (String.eqb (m_key (lf_member lf)) "application-process-identifier");
     [destruct V as (v & z & Ef & Ez & NF & Ev); rewrite Ef, Ev; split;
       [reflexivity|exists z; split; [reflexivity|]; destruct v as [z'|f|[]|w]; subst z; auto;
         [exfalso; exact (NF f eq_refl)|exfalso; apply (O w); rewrite Ef; left; reflexivity]]
     |destruct (fixed_values lf) as [|v rest]; rewrite V; split; try reflexivity;
       destruct (PT v (or_introl eq_refl)) as (X & _); apply String.eqb_neq in X; rewrite X; reflexivity]).
Qed.

(** ** Texts of messages *)

Definition packet_text (target : string) (p : packet) : string := cosmos_telemetry target (pk_comment p) (pk_name p) (pk_entries p).

Lemma cosmos_text_run : forall target ps, cosmos_text target ps = text_of_run (map (packet_text target) ps).
Proof. intros target ps. unfold cosmos_text, text_of_run. rewrite map_map. reflexivity. Qed.

Lemma message_text : forall (Q : leaf -> fields -> Prop) (f : leaf -> entry -> Prop) i m target n p,
  (forall lf e, f lf e -> shows lf e) -> nth_error ms i = Some m ->
  (forall lf e, f lf e -> (exists cm l ls, In (DSequence n cm l) (mod_defs m) /\ packet_leaves ms i [] l ls /\ In lf ls) ->
     Forall (fun k => member_ok k = true) (lf_path lf) -> Q lf (entry_fields e)) ->
  Forall (fun e => ~ has_char LF (te_value e)) (pk_entries p) ->
  describes f ms i m n p -> text_of_message Q ms i m target n (packet_text target p).
Proof.
  intros Q f i m target n p Hf Hm HQ HL (cm & l & ls & Hd & En & Ec & P & F).
  assert (OK := leaves_ok _ _ _ _ _ _ Hm Hd P).
  exists cm, l, ls, (map entry_text (pk_entries p)). split; [exact Hd|]. split; [exact P|]. split.
  - assert (IN : forall lf, In lf ls -> exists cm l ls, In (DSequence n cm l) (mod_defs m) /\ packet_leaves ms i [] l ls /\ In lf ls)
      by (intros lf Hlf; exists cm, l, ls; auto).
    clear Hd P En Ec.
    clear - F Hf HQ HL OK IN. induction F as [|lf e ls es A F IH]; [constructor|]. inversion OK as [|? ? O1 O2]; subst.
    inversion HL as [|? ? L1 L2]; subst. constructor; [|apply IH; auto; intros x Hx; apply IN; right; exact Hx].
    apply entry_text_leaf; [apply Hf; exact A|apply O1|exact L1|]. apply HQ; [exact A|apply IN; left; reflexivity|apply O1].
  - unfold packet_text, cosmos_telemetry. rewrite En, Ec. reflexivity.
Qed.

End Accepted.

Lemma folder_append_get : forall (f : string * string) fs, folder_get (folder_append f fs) (fst f) =
  Some (match folder_get fs (fst f) with Some old => old | None => "" end ++ snd f)
  /\ forall n, n <> fst f -> folder_get (folder_append f fs) n = folder_get fs n.
Proof.
  intros [a c] fs. unfold folder_append. cbn [fst snd].
  destruct (folder_get fs a) as [old|]; (split; [rewrite Files_proofs.folder_get_set, String.eqb_refl; reflexivity|]);
    intros n Hn; rewrite Files_proofs.folder_get_set; destruct (String.eqb_spec a n); congruence.
Qed.

(** A run that ends well. *)
Lemma cosmos_run_inv : forall fuel mn msgs target input fs fs', run fuel (GenerateCosmos mn msgs target) input fs = (fs', Ok tt) ->
  exists bun ps, build_from_cosmos_config input = Ok bun /\ cosmos_packets fuel bun mn msgs = Ok ps
    /\ fs' = folder_append (target ++ ".txt", text_of_run (map (packet_text target) ps)) fs.
Proof.
  intros fuel mn msgs target input fs fs' H. cbn [run] in H. unfold with_bundle in H.
  destruct (build_from_cosmos_config input) as [bun|e|] eqn:E; try (injection H as _ H; discriminate).
  unfold generate_cosmos in H. destruct (cosmos_packets fuel bun mn msgs) as [ps|e|] eqn:P; cbn [bind] in H; try (injection H as _ H; discriminate).
  injection H as <-. exists bun, ps. rewrite cosmos_text_run. auto.
Qed.

Lemma run_text : forall fuel mn msgs target input fs fs', Forall (fun m => grammatical m = true) input ->
  run fuel (GenerateCosmos mn msgs target) input fs = (fs', Ok tt) ->
  exists ms ts, Forall2 same_module input ms
    /\ folder_get fs' (target ++ ".txt")
       = Some (match folder_get fs (target ++ ".txt") with Some old => old | None => "" end ++ text_of_run ts)
    /\ (forall n, n <> target ++ ".txt" -> folder_get fs' n = folder_get fs n)
    /\ ((msgs = [] /\ ts = [] /\ ~ In mn (map mod_name ms))
        \/ exists i m, first_named ms i m /\ mod_name m = mn
           /\ Forall2 (text_of_message (unmentioned_item (definitions ms)) ms i m target) msgs ts
           /\ (one_clause_each ms i m msgs ->
               Forall2 (fun n t => text_of_message fixed_value ms i m target n t
                          /\ exists fs1, run fuel (GenerateCosmos mn [n] target) input [] = (fs1, Ok tt)
                               /\ folder_get fs1 (target ++ ".txt") = Some (text_of_run [t])) msgs ts)).
Proof.
  intros fuel mn msgs target input fs fs' Hg H. destruct (cosmos_run_inv _ _ _ _ _ _ _ H) as (bun & ps & Hb & Hp & ->).
  assert (Ha : accepted input bun) by (right; exact Hb).
  exists (all_modules bun), (map (packet_text target) ps).
  split; [apply (accepted_same _ _ Ha)|].
  destruct (folder_append_get (target ++ ".txt", text_of_run (map (packet_text target) ps)) fs) as (F1 & F2). cbn [fst snd] in F1, F2.
  split; [exact F1|]. split; [exact F2|].
  destruct (cosmos_packets_inv _ _ _ _ _ Hp) as [(-> & -> & N)|(i & m & Fm & Em & P)]; [left; auto|].
  right. exists i, m. split; [exact Fm|]. split; [exact Em|]. assert (Hm := proj1 Fm).
  assert (NL := packets_no_LF _ _ Hg Ha _ _ _ _ _ Hm P). split.
  - assert (S := packets_sound _ _ Hg Ha _ _ _ _ _ _ Hm P).
    assert (OR := packets_origin _ _ Hg Ha _ _ _ _ [] _ Hm (Forall_nil _) P).
    clear - S NL OR Hg Ha Hm. induction S as [|n p msgs ps D S IH]; [constructor|].
    inversion NL as [|? ? L1 L2]; subst. inversion OR as [|? ? O1 O2]; subst. constructor; [|auto].
    apply (message_text _ _ Hg Ha (unmentioned_item (definitions (all_modules bun))) (fun lf e => shows lf e /\ has_origin bun e)); auto.
    + intros lf e (X & _). exact X.
    + intros lf e (X & Y) _ _. apply (origin_unmentioned bun); assumption.
    + destruct D as (cm & l & ls & D1 & D2 & D3 & D4 & D5). exists cm, l, ls. split; [exact D1|]. split; [exact D2|]. split; [exact D3|].
      split; [exact D4|]. clear - D5 O1. induction D5 as [|lf e ls es A F IH]; [constructor|]. inversion O1; subst. constructor; auto.
  - intros O. assert (S := packets_values _ _ Hg Ha _ _ _ _ _ Hm O P). 
    assert (O' : forall n, In n msgs -> forall cm l ls, In (DSequence n cm l) (mod_defs m) -> packet_leaves (all_modules bun) i [] l ls -> Forall one_clause ls).
    { intros n Hn cm l ls. exact (O n cm l ls Hn). }
    assert (CP : forall n p, In n msgs -> packets fuel bun i [n] [] = Ok [p] -> cosmos_packets fuel bun mn [n] = Ok [p]).
    { intros n p Hn E. unfold cosmos_packets in *. apply bind_ok in Hp. destruct Hp as (bm & Hbm & Hp). rewrite Hbm. cbn [bind].
      apply bind_ok in Hp. destruct Hp as (u & Hu & Hp). apply assert_ok' in Hu. apply set_diff_nil in Hu.
      match goal with |- context[assert (is_nil ?x) _] => assert (X : is_nil x = true) end.
      { apply set_diff_nil. intros x [<-|[]]. apply Hu. exact Hn. }
      rewrite X. cbn [assert bind].
      destruct (index_of mn 0 (b_modules bun)) as [j|] eqn:Ej.
      - destruct (index_of_named bun _ _ Ej) as (m' & Fm' & Em'). assert (j = i); [|subst; exact E].
        destruct Fm as (A1 & A2), Fm' as (B1 & B2). destruct (Nat.lt_trichotomy i j) as [L|[->|L]]; [|reflexivity|]; exfalso.
        + apply (B2 i m L A1). congruence.
        + apply (A2 j m' L B1). congruence.
      - exfalso. destruct Fm as (A1 & _). apply index_of_none in Ej. apply nth_error_In in A1. unfold all_modules in A1.
        apply in_map_iff in A1. destruct A1 as (bm' & Eb & A1). apply (find_none _ _ Ej) in A1. unfold bm_name in A1. rewrite Eb, Em, String.eqb_refl in A1. discriminate. }
    clear - S NL Hg Ha Hm O' CP Hb. induction S as [|n p msgs ps (D & A) S IH]; [constructor|].
    inversion NL as [|? ? L1 L2]; subst. constructor.
    + split.
      * apply (message_text _ _ Hg Ha fixed_value (fun lf e => shows lf e /\ shows_value lf e)); auto; [intros lf e (X & _); exact X|].
        intros lf e (Sh & Sv) (cm & l & ls & Hd & Pl & Hin) Hok. apply shown_value; auto.
        assert (X := O' n (or_introl eq_refl) cm l ls Hd Pl). rewrite Forall_forall in X. apply X. exact Hin.
      * exists (folder_append (target ++ ".txt", text_of_run [packet_text target p]) []). split.
        { cbn [run]. unfold with_bundle. rewrite Hb. unfold generate_cosmos. rewrite (CP n p (or_introl eq_refl) A). cbn [bind].
          rewrite cosmos_text_run. reflexivity. }
        exact (proj1 (folder_append_get (target ++ ".txt", text_of_run [packet_text target p]) [])).
    + apply IH; [exact L2| |]; intros x; intros; [eapply O'; [right|..]; eassumption|apply CP; [right|]; assumption].
Qed.

Lemma weaken_message : forall (Q Q' : leaf -> fields -> Prop) ms i m target n t, (forall lf f, Q lf f -> Q' lf f) ->
  text_of_message Q ms i m target n t -> text_of_message Q' ms i m target n t.
Proof.
  intros Q Q' ms i m target n t H (cm & l & ls & ts & Hd & P & F & E). exists cm, l, ls, ts. split; [exact Hd|]. split; [exact P|].
  split; [|exact E]. clear - F H. induction F as [|lf s ls ts A F IH]; [constructor|]. constructor; [|exact IH].
  destruct A as (line & st & lim & un & E & (f & L & A1 & A2 & A3 & A4 & A5 & A6) & B). exists line, st, lim, un. split; [exact E|].
  split; [|exact B]. exists f. auto 10.
Qed.

Lemma run_complete : forall mn msgs target input bun fs, Forall (fun m => grammatical m = true) input ->
  build_from_cosmos_config input = Ok bun ->
  forall i m, first_named (all_modules bun) i m -> mod_name m = mn ->
  (looks_up m msgs -> acyclic_from (all_modules bun) i) ->
  (forall n, In n msgs -> exists cm l ls, In (DSequence n cm l) (mod_defs m) /\ packet_leaves (all_modules bun) i [] l ls
     /\ Forall (fun lf => apid_ok (lf_member lf)) ls)
  \/ (forall n, In n msgs -> exists cm l ls, In (DSequence n cm l) (mod_defs m) /\ packet_leaves (all_modules bun) i [] l ls
     /\ Forall (fun lf => apid_given lf /\ one_clause lf) ls) ->
  exists F, forall fuel, (F <= fuel)%nat -> exists fs', run fuel (GenerateCosmos mn msgs target) input fs = (fs', Ok tt).
Proof.
  intros mn msgs target input bun fs Hg Hb i m Fm Em AC H. assert (Ha : accepted input bun) by (right; exact Hb).
  destruct (cosmos_packets_complete _ _ Hg Ha _ _ _ _ Fm Em AC H) as (F & HF). exists F. intros fuel L. destruct (HF fuel L) as (ps & Hp).
  eexists. cbn [run]. unfold with_bundle, generate_cosmos. rewrite Hb, Hp. cbn [bind]. reflexivity.
Qed.

(** ** Checking imports by computation *)

Definition imports_descend (rank : nat -> nat) (ms : list module) : bool :=
  forallb (fun i => match nth_error ms i with
                    | Some m => forallb (fun j => Nat.ltb (rank j) (rank i)) (imported_of ms i m)
                    | None => true
                    end) (seq 0 (length ms)).

Lemma descend_acyclic : forall rank ms, imports_descend rank ms = true -> forall i, acyclic_from ms i.
Proof.
  intros rank ms H i0 i j _ I R.
  assert (D : forall i j, imports_module ms i j -> (rank j < rank i)%nat).
  { clear - H. intros i j I. unfold imports_descend in H. rewrite forallb_forall in H. assert (I' := I). destruct I' as (m & m' & it & (Hm & _) & _).
    assert (B : In i (seq 0 (length ms))) by (apply in_seq; split; [lia|]; simpl; apply nth_error_Some; congruence).
    apply H in B. rewrite Hm in B. rewrite forallb_forall in B. apply Nat.ltb_lt, B. apply (imported_of_imports ms i m j Hm). exact I. }
  assert (X : forall i j, reaches_module ms i j -> (rank j <= rank i)%nat).
  { clear - D. intros i j R. induction R as [i|i j k I R IH]; [lia|]. apply D in I. lia. }
  apply D in I. apply X in R. lia.
Qed.

Lemma resolved_definition : forall input bun, accepted input bun -> forall fuel n i,
  match get_definition fuel bun n i with
  | Ok r => visible (all_modules bun) i (dr_def r) /\ def_name (dr_def r) = n
            /\ forall d, visible (all_modules bun) i d -> def_name d = n -> d = dr_def r
  | Err e => e = ConsistencyError /\ forall d, visible (all_modules bun) i d -> def_name d <> n
  | OutOfFuel => True
  end.
Proof.
  intros input bun Ha fuel n i.
  assert (X := get_definition_spec _ _ (acc_build _ _ Ha) (acc_unique _ _ Ha) fuel n i).
  destruct (get_definition fuel bun n i) as [r|e|]; [|exact X|exact I].
  destruct X as (V & E). apply visible_ref_visible in V. split; [exact V|]. split; [exact E|]. intros d Vd Ed.
  apply (visible_unique _ _ Ha i); congruence.
Qed.

Lemma resolution_ends : forall input bun, accepted input bun -> forall i, acyclic_from (all_modules bun) i ->
  forall fuel n, (length (all_modules bun) < fuel)%nat -> get_definition fuel bun n i <> OutOfFuel.
Proof.
  intros input bun Ha i AC fuel n L. eapply get_definition_ends; [exact (acc_build _ _ Ha)|exact (acc_unique _ _ Ha)|exact AC|exact L].
Qed.

Lemma resolution_cyclic : forall input bun, accepted input bun ->
  forall i j k, reaches_module (all_modules bun) i j -> imports_module (all_modules bun) j k ->
  reaches_module (all_modules bun) k j -> forall fuel n, get_definition fuel bun n i = OutOfFuel.
Proof.
  intros input bun Ha i j k Ri I R fuel n. unfold get_definition.
  rewrite (recurs_cyclic_from _ _ (acc_build _ _ Ha) n i j k Ri I R fuel). reflexivity.
Qed.

Lemma run_lists_leaves : forall fuel mn msgs target input fs fs', Forall (fun m => grammatical m = true) input ->
  run fuel (GenerateCosmos mn msgs target) input fs = (fs', Ok tt) ->
  exists ms ts, Forall2 same_module input ms
    /\ folder_get fs' (target ++ ".txt")
       = Some (match folder_get fs (target ++ ".txt") with Some old => old | None => "" end ++ text_of_run ts)
    /\ (forall n, n <> target ++ ".txt" -> folder_get fs' n = folder_get fs n)
    /\ ((msgs = [] /\ ts = [] /\ ~ In mn (map mod_name ms))
        \/ exists i m, first_named ms i m /\ mod_name m = mn
           /\ Forall2 (text_of_message any_value ms i m target) msgs ts).
Proof.
  intros fuel mn msgs target input fs fs' Hg H. destruct (run_text _ _ _ _ _ _ _ Hg H) as (ms & ts & A & B & C & D).
  exists ms, ts. split; [exact A|]. split; [exact B|]. split; [exact C|]. destruct D as [D|(i & m & D1 & D2 & D3 & _)]; [left; exact D|right].
  exists i, m. split; [exact D1|]. split; [exact D2|]. clear - D3. induction D3; constructor; auto.
  eapply weaken_message; [|eassumption]. intros; exact I.
Qed.

Lemma imports_computed : forall ms i j m, nth_error ms i = Some m -> existsb (Nat.eqb j) (imported_of ms i m) = true ->
  imports_module ms i j.
Proof.
  intros ms i j m Hm H. apply (imported_of_imports ms i m j Hm). apply existsb_exists in H. destruct H as (x & Hx & E).
  apply Nat.eqb_eq in E. subst. exact Hx.
Qed.

(** Values under one clause each. *)
Lemma run_values : forall fuel mn msgs target input fs fs', Forall (fun m => grammatical m = true) input ->
  run fuel (GenerateCosmos mn msgs target) input fs = (fs', Ok tt) ->
  exists ms ts, Forall2 same_module input ms
    /\ folder_get fs' (target ++ ".txt")
       = Some (match folder_get fs (target ++ ".txt") with Some old => old | None => "" end ++ text_of_run ts)
    /\ forall i m, first_named ms i m -> mod_name m = mn -> one_clause_each ms i m msgs ->
       Forall2 (fun n t => text_of_message fixed_value ms i m target n t
                  /\ exists fs1, run fuel (GenerateCosmos mn [n] target) input [] = (fs1, Ok tt)
                       /\ folder_get fs1 (target ++ ".txt") = Some (text_of_run [t])) msgs ts.
Proof.
  intros fuel mn msgs target input fs fs' Hg H. destruct (run_text _ _ _ _ _ _ _ Hg H) as (ms & ts & A & B & C & D).
  exists ms, ts. split; [exact A|]. split; [exact B|]. intros i m F E O. destruct D as [(-> & -> & N)|(i' & m' & F' & E' & _ & D)].
  - constructor.
  - assert (X : i' = i).
    { destruct F as (A1 & A2), F' as (B1 & B2). destruct (Nat.lt_trichotomy i i') as [L|[->|L]]; [|reflexivity|]; exfalso.
      - apply (B2 i m L A1). congruence.
      - apply (A2 i' m' L B1). congruence. }
    subst i'. assert (m' = m) by (destruct F, F'; congruence). subst m'. apply D. exact O.
Qed.

Lemma run_only_fixed : forall fuel mn msgs target input fs fs', Forall (fun m => grammatical m = true) input ->
  run fuel (GenerateCosmos mn msgs target) input fs = (fs', Ok tt) ->
  exists ms ts, Forall2 same_module input ms
    /\ folder_get fs' (target ++ ".txt")
       = Some (match folder_get fs (target ++ ".txt") with Some old => old | None => "" end ++ text_of_run ts)
    /\ forall i m, first_named ms i m -> mod_name m = mn -> one_clause_each ms i m msgs ->
       Forall2 (text_of_message (fun lf f => lf_kind lf <> A_BOOL -> fixed_values lf = [] -> fd_keyword f <> "APPEND_ID_ITEM")
                  ms i m target) msgs ts.
Proof.
  intros fuel mn msgs target input fs fs' Hg H. destruct (run_values _ _ _ _ _ _ _ Hg H) as (ms & ts & A & B & C).
  exists ms, ts. split; [exact A|]. split; [exact B|]. intros i m F E O. specialize (C i m F E O). clear - C.
  induction C as [|n t msgs ts (D & _) C IH]; constructor; [|exact IH]. revert D. apply weaken_message.
  intros lf f (_ & V) K Fx. rewrite Fx in V.
  destruct (m_type (lf_member lf)), (lf_kind lf); try congruence; try (destruct V as (V & _); rewrite V; discriminate).
Qed.

Lemma run_unmentioned : forall fuel mn msgs target input fs fs', Forall (fun m => grammatical m = true) input ->
  run fuel (GenerateCosmos mn msgs target) input fs = (fs', Ok tt) ->
  exists ms ts, Forall2 same_module input ms
    /\ folder_get fs' (target ++ ".txt")
       = Some (match folder_get fs (target ++ ".txt") with Some old => old | None => "" end ++ text_of_run ts)
    /\ forall i m, first_named ms i m -> mod_name m = mn ->
       Forall2 (text_of_message (unmentioned_item (definitions ms)) ms i m target) msgs ts.
Proof.
  intros fuel mn msgs target input fs fs' Hg H. destruct (run_text _ _ _ _ _ _ _ Hg H) as (ms & ts & A & B & C & D).
  exists ms, ts. split; [exact A|]. split; [exact B|]. intros i m F E. destruct D as [(-> & -> & N)|(i' & m' & F' & E' & D & _)].
  - constructor.
  - assert (X : i' = i).
    { destruct F as (A1 & A2), F' as (B1 & B2). destruct (Nat.lt_trichotomy i i') as [L|[->|L]]; [|reflexivity|]; exfalso.
      - apply (B2 i m L A1). congruence.
      - apply (A2 i' m' L B1). congruence. }
    subst i'. assert (m' = m) by (destruct F, F'; congruence). subst m'. exact D.
Qed.

(** ** The leaves are determined *)

Lemma least_width_unique : forall w w' v, least_width w v -> least_width w' v -> w = w'.
Proof. intros w w' v (A1 & A2 & A3) (B1 & B2 & B3). apply Z.le_antisymm; auto. Qed.

Lemma smallest_unique : forall l P n n', smallest l P n -> smallest l P n' -> n = n'.
Proof. intros l P n n' (A1 & A2 & A3) (B1 & B2 & B3). apply Z.le_antisymm; auto. Qed.

Lemma written_unique : forall t c w c' w', written_item t c w -> written_item t c' w' -> c = c' /\ w = w'.
Proof.
  intros t c w c' w' H H'. destruct H as [t E|b e w H1 H2|b e w H1 H2|b e H1 H2|b e H1]; inversion H'; subst; try discriminate; auto; try lia;
    try tauto.
  - split; [reflexivity|]. eapply least_width_unique; eassumption.
  - split; [reflexivity|]. eapply smallest_unique; eassumption.
Qed.

Lemma item_unique : forall input bun, accepted input bun -> forall i t u c w s u' c' w' s',
  item_type (all_modules bun) i t u c w s -> item_type (all_modules bun) i t u' c' w' s' -> u = u' /\ c = c' /\ w = w' /\ s = s'.
Proof.
  intros input bun Ha i t u c w s u' c' w' s' H H'.
  destruct H as [t c w E N W|t E|k n|t n u cm c w E V W|t n cm l w E V W]; inversion H'; subst; try congruence;
    repeat match goal with
    | A : written_item ?t ?c ?w, B : written_item ?t ?c' ?w' |- _ => destruct (written_unique _ _ _ _ _ A B) as (-> & ->); clear A
    | A : written_item (TString _ _) _ _ |- _ => inversion A; subst; discriminate
    | A : written_item (TName _) _ _ |- _ => inversion A; subst; discriminate
    end; auto.
  all: try (match goal with A : element ?t = ?t, B : element ?t = TName _, C : written_item ?t _ _ |- _ =>
         rewrite A in B; subst t; inversion C; subst; discriminate end).
  all: try (match goal with A : element ?t = TName _, B : element ?t = TName _ |- _ => rewrite A in B; injection B as -> end).
  all: try (match goal with A : visible _ _ ?d, B : visible _ _ ?d' |- _ =>
         assert (X : d = d') by (eapply (visible_unique _ _ Ha i); [exact A|exact B|reflexivity]); try discriminate X; injection X as -> -> end).
  all: try (match goal with A : visible _ _ ?d, B : visible _ _ ?d' |- _ =>
         assert (X : d = d') by (eapply (visible_unique _ _ Ha i); [exact A|exact B|reflexivity]); try discriminate X; injection X as -> end).
  all: repeat match goal with
    | A : written_item ?t ?c ?w, B : written_item ?t ?c' ?w' |- _ => destruct (written_unique _ _ _ _ _ A B) as (-> & ->); clear A
    | A : least_width ?w ?v, B : least_width ?w' ?v |- _ => rewrite (least_width_unique _ _ _ A B); clear A
    end; auto.
  all: match goal with A : element (TString _ _) = _ |- _ => discriminate A end.
Qed.

Lemma item_not_nested : forall input bun, accepted input bun -> forall i t u c w s n cm l,
  item_type (all_modules bun) i t u c w s -> element t = TName n -> visible (all_modules bun) i (DSequence n cm l) -> False.
Proof.
  intros input bun Ha i t u c w s n cm l H E V.
  assert (U : forall d, visible (all_modules bun) i d -> def_name d = n -> d = DSequence n cm l).
  { intros d Vd Ed. exact (visible_unique _ _ Ha i _ _ Vd V Ed). }
  destruct H as [t c w E' N W|t E'|k n'|t n' u cm' c w E' V' W|t n' cm' l' w E' V' W]; try congruence.
  - destruct W as [t E2|b e w H1 H2|b e w H1 H2|b e H1 H2|b e H1]; try discriminate. congruence.
  - discriminate.
  - assert (n' = n) by congruence. subst n'. apply U in V'; [discriminate|reflexivity].
  - assert (n' = n) by congruence. subst n'. apply U in V'; [discriminate|reflexivity].
Qed.

Lemma leaves_unique : forall input bun, accepted input bun -> forall i p l ls ls',
  packet_leaves (all_modules bun) i p l ls -> packet_leaves (all_modules bun) i p l ls' -> ls = ls'.
Proof.
  intros input bun Ha i p l ls ls' H. revert ls'. induction H as [p|p m r u c w s ls I H IH|p m n cm l r ls1 ls2 E V H1 IH1 H2 IH2]; intros ls' H'.
  - inversion H'. reflexivity.
  - inversion H' as [|? ? ? u' c' w' s' ls0 I' H0|? ? n' cm' l' ? la lb E' V' Ha' Hb']; subst.
    + destruct (item_unique _ _ Ha _ _ _ _ _ _ _ _ _ _ I I') as (-> & -> & -> & ->). f_equal. apply IH. exact H0.
    + exfalso. eapply item_not_nested; eassumption.
  - inversion H' as [|? ? ? u' c' w' s' ls0 I' H0|? ? n' cm' l' ? la lb E' V' Ha' Hb']; subst.
    + exfalso. eapply item_not_nested; eassumption.
    + assert (n' = n) by congruence. subst n'. assert (X := visible_unique _ _ Ha i _ _ V V' eq_refl). injection X as _ <-.
      f_equal; auto.
Qed.
