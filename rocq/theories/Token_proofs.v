(** * Numbers and comments of the grammar *)
From Coq Require Import DecimalString.
From Verif Require Import Base PyNum PyFloat PyStr Ast Grammar Spec_Grammar Spec_Syntax Str_proofs
  Text_proofs Lex_proofs.
Open Scope string_scope.

(** ** Digits *)
Lemma digit_char : forall c, is_digit c = true -> forall d, exists d', uint_of_char c (Some d) = Some d'
  /\ forall acc, horner d' acc = horner d (10 * acc + (Z.of_N (N_of_ascii c) - 48)).
Proof.
  intros [[] [] [] [] [] [] [] []] H d; try discriminate H; eexists; (split; [reflexivity|]);
    intros acc; reflexivity.
Qed.

Lemma digits_uint : forall ds, all_chars is_digit ds = true ->
  exists u, NilEmpty.uint_of_string ds = Some u /\ forall acc, horner u acc = digits_value acc ds.
Proof.
  induction ds as [|c ds IH]; simpl; intros H; [exists Decimal.Nil; auto|].
  apply andb_true_iff in H as [K H]. destruct (IH H) as (u & U & E). rewrite U.
  destruct (digit_char c K u) as (d' & D & E'). exists d'. split; [exact D|]. intros acc. rewrite E', E. reflexivity.
Qed.

Lemma decimal_iff : forall ds n, decimal ds n <->
  ds <> "" /\ all_chars is_digit ds = true /\ n = digits_value 0 ds.
Proof.
  intros ds n. unfold decimal. split.
  - intros (N & D & u & U & ->). split; [exact N|]. split; [exact D|].
    destruct (digits_uint _ D) as (u' & U' & E). rewrite U in U'. injection U' as <-.
    rewrite <- E. change (Z.of_uint u) with (Z.of_N (N.of_uint u)). apply N_horner.
  - intros (N & D & ->). split; [exact N|]. split; [exact D|].
    destruct (digits_uint _ D) as (u & U & E). exists u. split; [exact U|].
    rewrite <- E. change (Z.of_uint u) with (Z.of_N (N.of_uint u)). symmetry. apply N_horner.
Qed.

(** ** Signs *)
Lemma sign_inv : forall s neg r, sign s = (neg, r) -> exists sg, signs neg sg /\ s = sg ++ r.
Proof.
  intros [|c s] neg r H; simpl in H; [injection H as <- <-; exists ""; simpl; auto|].
  destruct (Ascii.eqb c "-") eqn:E.
  - apply Ascii.eqb_eq in E as ->. injection H as <- <-. exists "-". simpl. auto.
  - destruct (Ascii.eqb c "+") eqn:E2.
    + apply Ascii.eqb_eq in E2 as ->. injection H as <- <-. exists "+". simpl. auto.
    + injection H as <- <-. exists "". simpl. auto.
Qed.
Definition no_sign (s : string) : Prop := not_next (fun c => Ascii.eqb c "-" || Ascii.eqb c "+") s.
Lemma sign_intro : forall neg sg r, signs neg sg -> no_sign r -> sign (sg ++ r) = (neg, r).
Proof.
  intros neg sg r H N. destruct neg; simpl in H; [subst; reflexivity|].
  destruct H as [-> | ->]; [|reflexivity]. destruct r as [|c r]; [reflexivity|]. simpl in *.
  apply orb_false_iff in N as [N1 N2]. rewrite N1, N2. reflexivity.
Qed.
Lemma digit_no_sign : forall c, is_digit c = true -> (Ascii.eqb c "-" || Ascii.eqb c "+") = false.
Proof. chars. Qed.
Lemma digits_no_sign : forall ds r, ds <> "" -> all_chars is_digit ds = true -> no_sign (ds ++ r).
Proof.
  intros [|c ds] r N D; [congruence|]. simpl in *. apply andb_true_iff in D as [D _]. apply digit_no_sign, D.
Qed.

Lemma word_digit : forall c, word_char c = false -> is_digit c = false.
Proof. chars. Qed.
Lemma word_chars_eq : forall c, word_char c = letter_digit_underscore c.
Proof. reflexivity. Qed.

(** ** Integers *)
Lemma INT_inv : forall ws s z r, INT ws s = Some (z, r) -> int_here z (base ws s) r.
Proof.
  unfold INT, token, base. intros ws s z r H. destruct (sign (if ws then skip_blanks s else s)) as [neg s1] eqn:S.
  destruct (span is_digit s1) as [ds r'] eqn:D. destruct (String.eqb ds "") eqn:N; [discriminate|].
  destruct (starts_with word_char r') eqn:W; [discriminate|]. injection H as <- <-.
  apply sign_inv in S as (sg & S & E). apply span_inv in D as (D & -> & _).
  exists neg, sg, ds, (digits_value 0 ds). split; [exact S|]. split.
  - apply decimal_iff. split; [apply String.eqb_neq, N|]. auto.
  - split; [exact E|]. split; [apply not_next_starts, W|]. reflexivity.
Qed.
Lemma INT_base : forall ws s z r, int_here z (base ws s) r -> INT ws s = Some (z, r).
Proof.
  unfold INT, token, base. intros ws s z r (neg & sg & ds & n & S & D & E & N & ->). rewrite E.
  apply decimal_iff in D as (D1 & D2 & ->). erewrite sign_intro; [|exact S|apply digits_no_sign; assumption].
  rewrite span_app; [|exact D2|].
  - apply String.eqb_neq in D1. rewrite D1. apply not_next_starts in N.
    change letter_digit_underscore with word_char in N. rewrite N. reflexivity.
  - destruct r; simpl in *; [exact I|]. apply word_digit, N.
Qed.
Lemma digit_not_blank : forall c, is_digit c = true -> is_blank c = false.
Proof. chars. Qed.

Definition numeric_char (c : ascii) : bool :=
  is_digit c || Ascii.eqb c "-" || Ascii.eqb c "+" || Ascii.eqb c ".".
Lemma numeric_not_blank : forall c, numeric_char c = true -> is_blank c = false.
Proof. chars. Qed.
Lemma int_here_first : forall z s r, int_here z s r -> exists c x, s = String c x /\ numeric_char c = true.
Proof.
  intros z s r (neg & sg & ds & n & S & (D1 & D2 & _) & -> & _).
  destruct ds as [|c ds]; [congruence|]. simpl in D2. apply andb_true_iff in D2 as [D2 _].
  destruct neg; simpl in S; [subst; exists "-"%char; eexists; split; reflexivity|].
  destruct S as [-> | ->]; [|exists "+"%char; eexists; split; reflexivity].
  exists c. eexists. split; [reflexivity|]. unfold numeric_char. rewrite D2. reflexivity.
Qed.
Lemma INT_true_inv : forall s z r, INT true s = Some (z, r) -> int_at z s r.
Proof. intros s z r H. apply INT_inv in H. exists (skip_blanks s). split; [apply skip_blanks_step|exact H]. Qed.
Lemma INT_true_intro : forall s z r, int_at z s r -> INT true s = Some (z, r).
Proof.
  intros s z r (m & B & H). apply INT_base. unfold base. rewrite (blanks_skip _ _ B).
  destruct (int_here_first _ _ _ H) as (c & x & -> & K). simpl. rewrite (numeric_not_blank _ K). exact H.
Qed.
Lemma int_here_len : forall z s r, int_here z s r -> (String.length r < String.length s)%nat.
Proof.
  intros z s r (neg & sg & ds & n & S & (D1 & D2 & _) & -> & _). rewrite !string_length_app.
  destruct ds; [congruence|]. simpl. lia.
Qed.

(** ** Floats *)
Lemma exponent_inv : forall s x r, exponent s = Some (x, r) ->
  exists e neg' sg' xs y, (e = "e" \/ e = "E") /\ signs neg' sg' /\ decimal xs y
    /\ s = (e ++ sg' ++ xs) ++ r /\ (x = if neg' then (- y)%Z else y) /\ not_next is_digit r.
Proof.
  intros [|c s] x r H; [discriminate|]. simpl in H.
  destruct (Ascii.eqb c "e" || Ascii.eqb c "E") eqn:K; [|discriminate].
  destruct (sign s) as [neg s1] eqn:S. destruct (span is_digit s1) as [ds r'] eqn:D.
  destruct (String.eqb ds "") eqn:N; [discriminate|]. injection H as <- <-.
  apply sign_inv in S as (sg & S & ->). apply span_inv in D as (D & -> & ND).
  exists (String c ""), neg, sg, ds, (digits_value 0 ds). split.
  - apply orb_true_iff in K as [K|K]; apply Ascii.eqb_eq in K as ->; auto.
  - split; [exact S|]. split; [apply decimal_iff; split; [apply String.eqb_neq, N|auto]|].
    split; [|split; [reflexivity|exact ND]]. rewrite <- !string_app_assoc. reflexivity.
Qed.
Lemma exponent_intro : forall e neg sg xs y r, (e = "e" \/ e = "E") -> signs neg sg -> decimal xs y ->
  not_next is_digit r ->
  exponent ((e ++ sg ++ xs) ++ r) = Some ((if neg then (- y)%Z else y), r).
Proof.
  intros e neg sg xs y r E S D N. rewrite <- !string_app_assoc. apply decimal_iff in D as (D1 & D2 & ->).
  assert (H : forall c, (Ascii.eqb c "e" || Ascii.eqb c "E") = true ->
    exponent (String c (sg ++ xs ++ r)) = Some ((if neg then (- digits_value 0 xs)%Z else digits_value 0 xs), r)).
  { intros c K. cbn [exponent]. rewrite K. erewrite sign_intro; [|exact S|apply digits_no_sign; assumption].
    rewrite span_app by assumption. apply String.eqb_neq in D1. rewrite D1. reflexivity. }
  destruct E as [-> | ->]; apply H; reflexivity.
Qed.

Lemma float_end_digit : forall r, not_next (fun c => letter_digit_underscore c || Ascii.eqb c ".") r ->
  not_next is_digit r /\ exponent r = None /\ not_next (fun c => Ascii.eqb c ".") r.
Proof.
  intros [|c r] H; simpl in *; [auto|]. apply orb_false_iff in H as [H1 H2].
  split; [apply word_digit, H1|]. split; [|exact H2].
  assert ((Ascii.eqb c "e" || Ascii.eqb c "E") = false) as ->; [|reflexivity].
  revert c H1 H2. chars.
Qed.

Lemma point_no_sign : forall r, no_sign ("." ++ r).
Proof. reflexivity. Qed.

Lemma STRICTFLOAT_inv : forall ws s f r, STRICTFLOAT ws s = Some (f, r) -> float_here f (base ws s) r.
Proof.
  unfold STRICTFLOAT, token, base. intros ws s f r H.
  destruct (sign (if ws then skip_blanks s else s)) as [neg s1] eqn:S.
  destruct (span is_digit s1) as [ds s2] eqn:D.
  apply sign_inv in S as (sg & S & ES). apply span_inv in D as (D & E1 & ND).
  assert (P : exists point fs s3,
    (match s2 with
      | String c r => if Ascii.eqb c "." then let '(fs, r') := span is_digit r in (true, fs, r')
                      else (false, "", s2)
      | EmptyString => (false, "", s2)
      end) = (negb (String.eqb point ""), fs, s3)
    /\ (point = "" /\ fs = "" \/ point = ".") /\ all_chars is_digit fs = true
    /\ s2 = point ++ fs ++ s3).
  { destruct s2 as [|c x]; [exists "", "", ""; simpl; auto 6|].
    destruct (Ascii.eqb c ".") eqn:K.
    - apply Ascii.eqb_eq in K as ->. destruct (span is_digit x) as [fs r'] eqn:D2.
      apply span_inv in D2 as (D2 & -> & _). exists ".", fs, r'. simpl. auto 6.
    - exists "", "", (String c x). simpl. auto 6. }
  destruct P as (point & fs & s3 & P & PF & DF & E2). rewrite P in H. clear P.
  destruct (exponent s3) as [[x s4]|] eqn:X.
  - destruct (String.eqb (ds ++ fs) "") eqn:N; [discriminate|]. rewrite orb_true_r in H. simpl in H.
    destruct (starts_with _ s4) eqn:W; [discriminate|]. injection H as <- <-.
    apply exponent_inv in X as (e & neg' & sg' & xs & y & X1 & X2 & X3 & X4 & X5 & X6).
    exists neg, sg, ds, fs, (digits_value 0 (ds ++ fs)), point, (e ++ sg' ++ xs), x.
    split; [exact S|]. split.
    { apply decimal_iff. split; [apply String.eqb_neq, N|]. split; [|reflexivity].
      clear - D DF. induction ds as [|c ds IH]; simpl in *; [exact DF|].
      apply andb_true_iff in D as [-> D]. auto. }
    split; [exact PF|]. split; [right; exists e, neg', sg', xs, y; auto 6|].
    split; [right; destruct X1 as [-> | ->]; discriminate|].
    split; [rewrite ES, E1, E2, X4; reflexivity|]. split; [apply not_next_starts, W|reflexivity].
  - destruct (String.eqb (ds ++ fs) "") eqn:N; [discriminate|]. rewrite orb_false_r in H.
    destruct (String.eqb point "") eqn:K; [discriminate|]. simpl in H.
    destruct (starts_with _ s3) eqn:W; [discriminate|]. injection H as <- <-.
    exists neg, sg, ds, fs, (digits_value 0 (ds ++ fs)), point, "", 0%Z.
    split; [exact S|]. split.
    { apply decimal_iff. split; [apply String.eqb_neq, N|]. split; [|reflexivity].
      clear - D DF. induction ds as [|c ds IH]; simpl in *; [exact DF|].
      apply andb_true_iff in D as [-> D]. auto. }
    split; [exact PF|]. split; [left; auto|]. split; [left; apply String.eqb_neq, K|].
    split; [rewrite ES, E1, E2; reflexivity|]. split; [apply not_next_starts, W|reflexivity].
Qed.

Lemma all_chars_app : forall f a b, all_chars f (a ++ b) = all_chars f a && all_chars f b.
Proof. intros f. induction a as [|c a IH]; simpl; intros b; [reflexivity|]. rewrite IH, andb_assoc. reflexivity. Qed.

Lemma STRICTFLOAT_base : forall ws s f r, float_here f (base ws s) r -> STRICTFLOAT ws s = Some (f, r).
Proof.
  unfold STRICTFLOAT, token, base.
  intros ws s f r (neg & sg & ds & fs & n & point & expo & x & S & D & P & X & O & E & N & ->). rewrite E.
  apply decimal_iff in D as (D1 & D2 & ->). rewrite all_chars_app in D2. apply andb_true_iff in D2 as [D2 D3].
  destruct (float_end_digit _ N) as (ND & NX & NP).
  assert (XE : match exponent (expo ++ r) with Some (x, r) => (true, x, r) | None => (false, 0%Z, expo ++ r) end
               = (negb (String.eqb expo ""), x, r)).
  { destruct X as [[-> ->] | (e & neg' & sg' & xs & y & X1 & X2 & X3 & -> & ->)].
    - simpl. rewrite NX. reflexivity.
    - rewrite (exponent_intro e neg' sg' xs y r) by assumption. destruct X1 as [-> | ->]; reflexivity. }
  assert (XD : not_next is_digit (expo ++ r)).
  { destruct X as [[-> ->] | (e & neg' & sg' & xs & y & X1 & X2 & X3 & -> & ->)]; [exact ND|].
    destruct X1 as [-> | ->]; reflexivity. }
  assert (XP : not_next (fun c => Ascii.eqb c ".") (expo ++ r)).
  { destruct X as [[-> ->] | (e & neg' & sg' & xs & y & X1 & X2 & X3 & -> & ->)]; [exact NP|].
    destruct X1 as [-> | ->]; reflexivity. }
  assert (W : starts_with (fun c => word_char c || Ascii.eqb c ".") r = false) by (apply not_next_starts, N).
  apply String.eqb_neq in D1.
  assert (NS : no_sign (ds ++ point ++ fs ++ expo ++ r)).
  { destruct ds as [|c ds].
    - destruct P as [[-> ->] | ->]; [discriminate D1|reflexivity].
    - simpl in *. apply andb_true_iff in D2 as [D2 _]. apply digit_no_sign, D2. }
  rewrite (sign_intro neg sg) by assumption.
  rewrite span_app; [|exact D2|].
  2:{ destruct P as [[-> ->] | ->]; [exact XD|reflexivity]. }
  destruct P as [[-> ->] | ->].
  - simpl append. replace (match expo ++ r with
      | "" => (false, "", expo ++ r)
      | String c r0 => if Ascii.eqb c "." then let '(fs, r') := span is_digit r0 in (true, fs, r')
                       else (false, "", expo ++ r) end) with (false, "", expo ++ r).
    2:{ destruct (expo ++ r) as [|c y]; [reflexivity|]. simpl in XP. rewrite XP. reflexivity. }
    rewrite XE. rewrite D1. destruct (String.eqb expo "") eqn:K.
    + apply String.eqb_eq in K. destruct O as [O|O]; congruence.
    + simpl. rewrite W. reflexivity.
  - change ("." ++ fs ++ expo ++ r) with (String "." (fs ++ expo ++ r)). simpl Ascii.eqb. cbv iota.
    rewrite span_app by assumption. rewrite Ascii.eqb_refl. cbv beta iota zeta. rewrite XE. cbv beta iota. rewrite D1. cbn [orb negb]. rewrite W. reflexivity.
Qed.

Lemma float_here_first : forall f s r, float_here f s r -> exists c x, s = String c x /\ numeric_char c = true.
Proof.
  intros f s r (neg & sg & ds & fs & n & point & expo & x & S & (D1 & D2 & _) & P & X & O & -> & N & _).
  destruct neg; simpl in S; [subst; exists "-"%char; eexists; split; reflexivity|].
  destruct S as [-> | ->]; [|exists "+"%char; eexists; split; reflexivity].
  destruct ds as [|c ds].
  - destruct P as [[-> ->] | ->]; [destruct (D1 eq_refl)|]. exists "."%char. eexists. split; reflexivity.
  - simpl in D2. apply andb_true_iff in D2 as [D2 _]. exists c. eexists. split; [reflexivity|].
    unfold numeric_char. rewrite D2. reflexivity.
Qed.
Lemma STRICTFLOAT_true_inv : forall s z r, STRICTFLOAT true s = Some (z, r) -> float_at z s r.
Proof. intros s z r H. apply STRICTFLOAT_inv in H. exists (skip_blanks s). split; [apply skip_blanks_step|exact H]. Qed.
Lemma STRICTFLOAT_true_intro : forall s z r, float_at z s r -> STRICTFLOAT true s = Some (z, r).
Proof.
  intros s z r (m & B & H). apply STRICTFLOAT_base. unfold base. rewrite (blanks_skip _ _ B).
  destruct (float_here_first _ _ _ H) as (c & x & -> & K). simpl. rewrite (numeric_not_blank _ K). exact H.
Qed.

(** An integer is not the beginning of a float that is followed by a
    parenthesis. *)
Lemma int_not_float : forall f s r z r', float_at f s r -> int_at z s r' -> nb r' <> Some ")"%char.
Proof.
  intros f s r z r' (m & B & F) (m' & B' & I).
  assert (m = m') as <-.
  { destruct (float_here_first _ _ _ F) as (c & x & Ec & K). destruct (int_here_first _ _ _ I) as (c' & x' & Ec' & K').
    assert (E : skip_blanks m = skip_blanks m') by (rewrite <- (blanks_skip _ _ B); apply blanks_skip, B').
    rewrite Ec, Ec' in *. simpl in E. rewrite (numeric_not_blank _ K), (numeric_not_blank _ K') in E. exact E. }
  destruct F as (neg & sg & ds & fs & n & point & expo & x & S & D & P & X & O & E & N & _).
  destruct I as (neg' & sg' & ds' & n' & S' & D' & E' & N' & _).
  destruct D as (D1 & D2 & _), D' as (D1' & D2' & _). rewrite all_chars_app in D2. apply andb_true_iff in D2 as [D2 D3].
  assert (NS : no_sign (ds ++ point ++ fs ++ expo ++ r)).
  { destruct ds as [|c ds].
    - destruct P as [[-> ->] | ->]; [destruct (D1 eq_refl)|reflexivity].
    - simpl in *. apply andb_true_iff in D2 as [D2 _]. apply digit_no_sign, D2. }
  assert (Q : sign m = (neg, ds ++ point ++ fs ++ expo ++ r)) by (rewrite E; apply sign_intro; assumption).
  rewrite E', (sign_intro neg' sg') in Q; [|exact S'|apply digits_no_sign; assumption]. injection Q as _ Q.
  assert (ND : forall c y, point ++ fs ++ expo ++ r = String c y -> is_digit c = false).
  { intros c y H. destruct P as [[-> ->] | ->].
    - simpl in H. destruct (float_end_digit _ N) as (ND & _).
      destruct X as [[-> _] | (e & neg2 & sg2 & xs & y2 & X1 & _ & _ & -> & _)].
      + simpl in H. destruct O; congruence.
      + destruct X1 as [-> | ->]; injection H as <- _; reflexivity.
    - injection H as <- _. reflexivity. }
  assert (Q1 : span is_digit (ds' ++ r') = (ds', r')).
  { apply span_app; [exact D2'|]. destruct r'; simpl in *; [exact I|]. apply word_digit, N'. }
  rewrite Q, span_app in Q1; [|exact D2|].
  2:{ destruct (point ++ fs ++ expo ++ r) eqn:Z; simpl; [exact I|]. eapply ND. reflexivity. }
  injection Q1 as -> <-. destruct P as [[-> ->] | ->].
  - simpl. destruct X as [[-> _] | (e & neg2 & sg2 & xs & y2 & X1 & _ & _ & -> & _)].
    + destruct O; congruence.
    + destruct X1 as [-> | ->]; discriminate.
  - discriminate.
Qed.

(** ** Comments *)
Lemma spaces_reads : forall l s r, reads (lit " ") false l s r -> s = repeat_str (List.length l) " " ++ r.
Proof.
  induction l as [|u l IH]; simpl; intros s r H; [exact H|]. destruct H as (m & E & R).
  apply lit_false_inv in E. rewrite E. apply IH in R. rewrite R at 1. reflexivity.
Qed.
Lemma space_consumes : consumes (lit " ") false.
Proof. intros s a r H. apply lit_false_inv in H. rewrite H. simpl. lia. Qed.
Lemma no_space_lit : forall s, no_space s <-> lit " " false s = None.
Proof.
  unfold no_space, lit, token. intros [|c s]; cbn [not_next drop_prefix]; [split; auto|].
  destruct (Ascii.eqb " " c); split; auto; discriminate.
Qed.
Lemma spaces_inv : forall s l r, many (lit " ") false s = Some (l, r) -> spaces s r /\ no_space r.
Proof.
  intros s l r H. split.
  - apply many_inv, spaces_reads in H. exists (List.length l). exact H.
  - apply no_space_lit. eapply many_end; [apply space_consumes|exact H].
Qed.
Lemma spaces_intro : forall s r, spaces s r -> no_space r -> exists l, many (lit " ") false s = Some (l, r).
Proof.
  intros s r (n & ->) N. exists (repeat tt n). apply many_intro; [apply space_consumes| |apply no_space_lit, N].
  induction n as [|n IH]; simpl; [reflexivity|]. exists (repeat_str n " " ++ r). split; [reflexivity|exact IH].
Qed.
Lemma spaces_no : forall s, no_space s -> exists l, many (lit " ") false s = Some (l, s).
Proof. intros s N. apply spaces_intro; [exists O; reflexivity|exact N]. Qed.

Lemma comment_class_eq : forall c, comment_class c = comment_char c.
Proof. chars. Qed.
Lemma all_chars_ext : forall f g s, (forall c, f c = g c) -> all_chars f s = all_chars g s.
Proof. intros f g s H. induction s as [|c s IH]; simpl; [reflexivity|]. rewrite H, IH. reflexivity. Qed.
Lemma at_line_end_iff : forall s, at_line_end s = true <-> line_ends s.
Proof.
  unfold line_ends, NL. intros [|c s]; simpl; split; intros H; auto.
  - apply Ascii.eqb_eq in H as ->. right. exists s. reflexivity.
  - destruct H as [H | (r & H)]; [discriminate|]. injection H as -> ->. apply Ascii.eqb_refl.
Qed.
Lemma LF_not_comment : comment_char LF = false.
Proof. reflexivity. Qed.
Lemma comment_text_iff : forall s t r, comment_text false s = Some (t, r) <-> text_here t s r.
Proof.
  unfold comment_text, token, text_here. intros s t r. split.
  - destruct (span comment_class s) as [a x] eqn:E. destruct (String.eqb a "") eqn:N; [discriminate|].
    destruct (at_line_end x) eqn:L; [|discriminate]. intros H. injection H as <- <-.
    apply span_inv in E as (E1 & E2 & _). rewrite (all_chars_ext _ _ _ comment_class_eq) in E1.
    split; [apply String.eqb_neq, N|]. split; [exact E1|]. split; [exact E2|apply at_line_end_iff, L].
  - intros (N & C & -> & L). rewrite span_app.
    + apply String.eqb_neq in N. rewrite N. apply at_line_end_iff in L. rewrite L. reflexivity.
    + rewrite (all_chars_ext _ _ _ comment_class_eq). exact C.
    + destruct L as [-> | (y & ->)]; simpl; [exact I|reflexivity].
Qed.
Definition unit_parser : parser string := (lit "[" ;; u <- unit_text ;; lit "]" ;; ret u)%string.
Lemma unit_iff : forall s u r, unit_parser false s = Some (u, r) <-> unit_here u s r.
Proof.
  unfold unit_parser, unit_here. intros s u r. split.
  - intros H. apply andthen_inv in H as (a1 & m1 & H1 & H). apply andthen_inv in H as (a2 & m2 & H2 & H).
    apply andthen_inv in H as (a3 & m3 & H3 & H). injection H as -> ->.
    apply lit_false_inv in H1, H3. unfold unit_text, token in H2.
    destruct (span unit_class m1) as [a x] eqn:E. destruct (String.eqb a "") eqn:N; [discriminate|].
    injection H2 as <- <-. apply span_inv in E as (E1 & E2 & _).
    split; [apply String.eqb_neq, N|]. split; [exact E1|]. rewrite H1, E2, H3. reflexivity.
  - intros (N & C & ->). eapply andthen_intro; [apply lit_false_intro; reflexivity|].
    eapply andthen_intro.
    + unfold unit_text, token. rewrite span_app; [|exact C|reflexivity]. apply String.eqb_neq in N. rewrite N. reflexivity.
    + eapply andthen_intro; [apply lit_false_intro; reflexivity|]. reflexivity.
Qed.

Lemma Asn1Comment_mode : forall ws s, Asn1Comment ws s = Asn1Comment false s.
Proof. reflexivity. Qed.

Lemma option_unit_eq : forall s u r, unit_parser false s = Some (u, r) -> u <> "".
Proof. intros s u r H. apply unit_iff in H. apply H. Qed.

Lemma Asn1Comment_inv : forall ws s c r, Asn1Comment ws s = Some (c, r) -> comment_at c s r.
Proof.
  unfold Asn1Comment, noskipws. intros ws s c r H.
  apply andthen_inv in H as (l1 & m1 & H1 & H). apply andthen_inv in H as (u2 & m2 & H2 & H).
  apply andthen_inv in H as (l3 & m3 & H3 & H). apply andthen_inv in H as (le & m4 & H4 & H).
  apply andthen_inv in H as (l5 & m5 & H5 & H). apply andthen_inv in H as (u & m6 & H6 & H).
  apply andthen_inv in H as (l7 & m7 & H7 & H). apply andthen_inv in H as (t & m8 & H8 & H).
  injection H as <- ->.
  apply spaces_inv in H1 as [H1 _]. apply lit_false_inv in H2. apply spaces_inv in H3 as [H3 N3].
  apply opt_inv in H4. apply spaces_inv in H5 as [H5 N5]. apply opt_inv in H6. apply spaces_inv in H7 as [H7 N7].
  apply opt_inv in H8. exists m3, m5, m7. cbn [cm_little_endian cm_unit cm_text].
  split; [exists m1; split; [exact H1|]; exists m2; split; assumption|]. split; [exact N3|]. split.
  - destruct le as [e|]; simpl.
    + apply lit_false_inv in H4. exists m4. split; assumption.
    + destruct H4 as [-> H4]. split.
      * destruct (spaces_no _ N3) as (l & E). destruct H5 as (n & H5).
        destruct n as [|n]; [rewrite H5; reflexivity|]. rewrite H5 in N3. discriminate N3.
      * intros x X. apply lit_false_intro in X. congruence.
  - split; [exact N5|]. split; [|split; [exact N7|]].
    + destruct u as [u|]; cbn [or_empty].
      * change (unit_parser false m5 = Some (u, m6)) in H6. assert (N := option_unit_eq _ _ _ H6).
        apply String.eqb_neq in N. rewrite N. exists m6. split; [apply unit_iff, H6|exact H7].
      * simpl. destruct H6 as [-> H6]. split.
        -- destruct H7 as (n & H7). destruct n as [|n]; [rewrite H7; reflexivity|]. rewrite H7 in N5. discriminate N5.
        -- intros u x X. apply unit_iff in X. change (unit_parser false m5 = None) in H6. congruence.
    + destruct t as [t|]; cbn [or_empty].
      * apply comment_text_iff in H8. assert (N := proj1 H8). apply String.eqb_neq in N. rewrite N. exact H8.
      * simpl. destruct H8 as [-> H8]. split; [reflexivity|]. intros t x X. apply comment_text_iff in X. congruence.
Qed.

Lemma Asn1Comment_intro : forall ws s c r, comment_at c s r -> Asn1Comment ws s = Some (c, r).
Proof.
  unfold Asn1Comment, noskipws. intros ws s [t u le] r (s1 & s2 & s3 & (m1 & A1 & m2 & A2 & A3) & N1 & L & N2 & U & N3 & T).
  cbn [cm_little_endian cm_unit cm_text] in *.
  destruct (spaces_intro _ _ A1) as (l1 & E1). { unfold no_space. rewrite A2. reflexivity. }
  eapply andthen_intro; [exact E1|]. eapply andthen_intro; [apply lit_false_intro, A2|].
  destruct (spaces_intro _ _ A3 N1) as (l3 & E3). eapply andthen_intro; [exact E3|].
  assert (LE : exists o x l, opt (lit "ENDIANNESS(LITTLE)") false s1 = Some (o, x) /\ is_some o = le
     /\ many (lit " ") false x = Some (l, s2)).
  { destruct le.
    - destruct L as (x & L1 & L2). destruct (spaces_intro _ _ L2 N2) as (l & E). exists (Some tt), x, l.
      split; [apply opt_some, lit_false_intro, L1|]. auto.
    - destruct L as [-> L]. destruct (spaces_no _ N2) as (l & E). exists None, s1, l.
      split; [|auto]. apply opt_none. destruct (lit "ENDIANNESS(LITTLE)" false s1) as [[v x]|] eqn:Z; [|reflexivity].
      apply lit_false_inv in Z. destruct (L _ Z). }
  destruct LE as (o & x & l & O1 & <- & O3). eapply andthen_intro; [exact O1|]. eapply andthen_intro; [exact O3|].
  assert (UE : exists o x l, opt unit_parser false s2 = Some (o, x) /\ or_empty o = u
     /\ many (lit " ") false x = Some (l, s3)).
  { destruct (String.eqb u "") eqn:Z.
    - apply String.eqb_eq in Z as ->. destruct U as [-> U]. destruct (spaces_no _ N3) as (l' & E).
      exists None, s2, l'. split; [|auto]. apply opt_none.
      destruct (unit_parser false s2) as [[v y]|] eqn:Q; [|reflexivity]. apply unit_iff in Q. destruct (U _ _ Q).
    - destruct U as (y & U1 & U2). destruct (spaces_intro _ _ U2 N3) as (l' & E). exists (Some u), y, l'.
      split; [apply opt_some, unit_iff, U1|]. auto. }
  destruct UE as (o' & x' & l' & P1 & <- & P3). eapply andthen_intro; [exact P1|]. eapply andthen_intro; [exact P3|].
  assert (TE : exists o, opt comment_text false s3 = Some (o, r) /\ or_empty o = t).
  { destruct (String.eqb t "") eqn:Z.
    - apply String.eqb_eq in Z as ->. destruct T as [-> T]. exists None. split; [|reflexivity]. apply opt_none.
      destruct (comment_text false s3) as [[v y]|] eqn:Q; [|reflexivity]. apply comment_text_iff in Q. destruct (T _ _ Q).
    - exists (Some t). split; [apply opt_some, comment_text_iff, T|reflexivity]. }
  destruct TE as (o2 & T1 & <-). eapply andthen_intro; [exact T1|]. reflexivity.
Qed.

Lemma spaces_nb : forall s r, spaces s r -> nb s = nb r.
Proof.
  intros s r (n & ->). induction n as [|n IH]; [reflexivity|]. change (nb (String " " (repeat_str n " " ++ r)) = nb r).
  unfold nb in *. cbn [skip_blanks]. exact IH.
Qed.
Lemma comment_nb : forall c s r, comment_at c s r -> nb s = Some "-"%char.
Proof.
  intros c s r (s1 & s2 & s3 & (m1 & A1 & m2 & A2 & A3) & _). rewrite (spaces_nb _ _ A1), A2. reflexivity.
Qed.
Lemma comment_first : forall c s r, comment_at c s r -> exists x, s = String " " x \/ s = String "-" x.
Proof.
  intros c s r (s1 & s2 & s3 & (m1 & (n & A1) & m2 & A2 & A3) & _). rewrite A1, A2.
  destruct n as [|n]; simpl; eexists; [right|left]; reflexivity.
Qed.
Lemma comment_fail : forall ws s, nb s <> Some "-"%char -> Asn1Comment ws s = None.
Proof.
  intros ws s H. destruct (Asn1Comment ws s) as [[c r]|] eqn:E; [|reflexivity].
  apply Asn1Comment_inv, comment_nb in E. congruence.
Qed.
Lemma comment_opt_inv : forall ws s c r, opt Asn1Comment ws s = Some (c, r) -> comment_opt_at c s r.
Proof.
  intros ws s c r H. apply opt_inv in H. destruct c as [c|]; [eapply Asn1Comment_inv, H|]. symmetry. apply H.
Qed.
Lemma comment_opt_intro : forall ws s c r, comment_opt_at c s r -> nb r <> Some "-"%char \/ c <> None ->
  opt Asn1Comment ws s = Some (c, r).
Proof.
  intros ws s [c|] r H N; simpl in H; [apply opt_some, Asn1Comment_intro, H|]. red in H. subst r.
  apply opt_none, comment_fail. destruct N; congruence.
Qed.
