(** * Lexical part of the grammar: blanks, words, names, numbers, comments *)
From Coq Require Import DecimalString.
From Verif Require Import Base PyNum PyFloat PyStr Ast Grammar Spec_Grammar Spec_Syntax Str_proofs.
Open Scope string_scope.

Ltac chars := intros [[] [] [] [] [] [] [] []]; vm_compute; auto; try discriminate.

(** ** Combinators *)
Lemma andthen_inv : forall A B (p : parser A) (f : A -> parser B) ws s b r,
  andthen p f ws s = Some (b, r) -> exists a m, p ws s = Some (a, m) /\ f a ws m = Some (b, r).
Proof.
  unfold andthen. intros A B p f ws s b r H. destruct (p ws s) as [[a m]|]; [|discriminate]. eauto.
Qed.
Lemma andthen_intro : forall A B (p : parser A) (f : A -> parser B) ws s a m x,
  p ws s = Some (a, m) -> f a ws m = x -> andthen p f ws s = x.
Proof. unfold andthen. intros A B p f ws s a m x -> H. exact H. Qed.
Lemma andthen_fail : forall A B (p : parser A) (f : A -> parser B) ws s,
  p ws s = None -> andthen p f ws s = None.
Proof. unfold andthen. intros A B p f ws s ->. reflexivity. Qed.

Lemma orelse_inv : forall A (p q : parser A) ws s x,
  orelse p q ws s = Some x -> p ws s = Some x \/ (p ws s = None /\ q ws s = Some x).
Proof. unfold orelse. intros A p q ws s x H. destruct (p ws s); auto. Qed.
Lemma orelse_l : forall A (p q : parser A) ws s x, p ws s = Some x -> orelse p q ws s = Some x.
Proof. unfold orelse. intros A p q ws s x ->. reflexivity. Qed.
Lemma orelse_r : forall A (p q : parser A) ws s x, p ws s = None -> q ws s = x -> orelse p q ws s = x.
Proof. unfold orelse. intros A p q ws s x -> H. exact H. Qed.

Lemma opt_inv : forall A (p : parser A) ws s o r, opt p ws s = Some (o, r) ->
  match o with Some a => p ws s = Some (a, r) | None => r = s /\ p ws s = None end.
Proof.
  unfold opt. intros A p ws s o r H. destruct (p ws s) as [[a m]|]; injection H as <- <-; auto.
Qed.
Lemma opt_some : forall A (p : parser A) ws s a r, p ws s = Some (a, r) -> opt p ws s = Some (Some a, r).
Proof. unfold opt. intros A p ws s a r ->. reflexivity. Qed.
Lemma opt_none : forall A (p : parser A) ws s, p ws s = None -> opt p ws s = Some (None, s).
Proof. unfold opt. intros A p ws s ->. reflexivity. Qed.

(** A list of items read one after the other. *)
Fixpoint reads {A} (p : parser A) (ws : bool) (l : list A) (s r : string) : Prop :=
  match l with
  | [] => s = r
  | a :: l' => exists m, p ws s = Some (a, m) /\ reads p ws l' m r
  end.

Lemma many_n_inv : forall A (p : parser A) ws n s l r,
  many_n n p ws s = Some (l, r) ->
  reads p ws l s r /\ ((List.length l < n)%nat -> p ws r = None).
Proof.
  intros A p ws. induction n as [|n IH]; intros s l r H; simpl in H.
  - injection H as <- <-. split; [reflexivity|simpl; lia].
  - destruct (p ws s) as [[a m]|] eqn:E.
    + destruct (many_n n p ws m) as [[l' r']|] eqn:E2; [|discriminate]. injection H as <- <-.
      destruct (IH _ _ _ E2) as [R N]. split; [exists m; auto|simpl; intros L; apply N; lia].
    + injection H as <- <-. split; [reflexivity|auto].
Qed.

Lemma many_inv : forall A (p : parser A) ws s l r,
  many p ws s = Some (l, r) -> reads p ws l s r.
Proof. unfold many. intros A p ws s l r H. apply many_n_inv in H. tauto. Qed.

Definition consumes {A} (p : parser A) (ws : bool) : Prop :=
  forall s a r, p ws s = Some (a, r) -> (String.length r < String.length s)%nat.

Lemma reads_length : forall A (p : parser A) ws, consumes p ws -> forall l s r,
  reads p ws l s r -> (List.length l + String.length r <= String.length s)%nat.
Proof.
  intros A p ws C. induction l as [|a l IH]; simpl; intros s r H; [subst; lia|].
  destruct H as (m & H & R). apply C in H. apply IH in R. lia.
Qed.

Lemma many_n_intro : forall A (p : parser A) ws l n s r,
  (List.length l <= n)%nat -> reads p ws l s r -> p ws r = None -> many_n n p ws s = Some (l, r).
Proof.
  intros A p ws. induction l as [|a l IH]; intros n s r L R F; simpl in R.
  - subst. destruct n; simpl; [reflexivity|]. rewrite F. reflexivity.
  - destruct R as (m & E & R). destruct n as [|n]; [simpl in L; lia|]. simpl. rewrite E.
    rewrite (IH n m r); [reflexivity|simpl in L; lia|exact R|exact F].
Qed.

Lemma many_intro : forall A (p : parser A) ws l s r, consumes p ws ->
  reads p ws l s r -> p ws r = None -> many p ws s = Some (l, r).
Proof.
  intros A p ws l s r C R F. unfold many. apply many_n_intro; [|exact R|exact F].
  assert (H := reads_length _ _ _ C _ _ _ R). lia.
Qed.

Lemma many_end : forall A (p : parser A) ws s l r, consumes p ws ->
  many p ws s = Some (l, r) -> p ws r = None.
Proof.
  unfold many. intros A p ws s l r C H. destruct (p ws r) as [[a m]|] eqn:E; [|reflexivity].
  apply many_n_inv in H. destruct H as [R N]. assert (L := reads_length _ _ _ C _ _ _ R).
  assert (L' := C _ _ _ E). rewrite N in E; [discriminate|lia].
Qed.

(** ** Blanks *)
Lemma is_blank_char : forall c, is_blank c = blank_char c.
Proof. chars. Qed.

Lemma skip_blanks_split : forall s, exists b, all_chars blank_char b = true /\ s = b ++ skip_blanks s
  /\ not_next is_blank (skip_blanks s).
Proof.
  induction s as [|c s (b & B & E & N)]; simpl; [exists ""; auto|].
  destruct (is_blank c) eqn:K.
  - exists (String c b). simpl. rewrite <- is_blank_char, K, B. split; [reflexivity|]. rewrite <- E. auto.
  - exists "". simpl. auto.
Qed.
Lemma skip_blanks_app : forall b s, all_chars blank_char b = true -> skip_blanks (b ++ s) = skip_blanks s.
Proof.
  induction b as [|c b IH]; simpl; intros s H; [reflexivity|]. apply andb_true_iff in H as [K H].
  rewrite is_blank_char, K. auto.
Qed.
Lemma skip_blanks_id : forall s, not_next is_blank s -> skip_blanks s = s.
Proof. intros [|c s] H; simpl in *; [reflexivity|]. rewrite H. reflexivity. Qed.
Lemma skip_blanks_len : forall s, (String.length (skip_blanks s) <= String.length s)%nat.
Proof. induction s as [|c s IH]; simpl; [lia|]. destruct (is_blank c); simpl; lia. Qed.

Lemma skip_blanks_step : forall s, blanks s (skip_blanks s).
Proof. intros s. destruct (skip_blanks_split s) as (b & B & E & _). exists b. auto. Qed.

(** First character that is not blank. *)
Definition nb (s : string) : option ascii :=
  match skip_blanks s with String c _ => Some c | EmptyString => None end.

Lemma blanks_nb : forall s r, blanks s r -> nb s = nb r.
Proof. unfold nb. intros s r (b & B & ->). rewrite skip_blanks_app by exact B. reflexivity. Qed.
Lemma blanks_skip : forall s r, blanks s r -> skip_blanks s = skip_blanks r.
Proof. intros s r (b & B & ->). apply skip_blanks_app, B. Qed.
Lemma nb_char : forall c r, is_blank c = false -> nb (String c r) = Some c.
Proof. unfold nb. intros c r H. simpl. rewrite H. reflexivity. Qed.
Lemma blanks_refl : forall s, blanks s s.
Proof. intros s. exists "". auto. Qed.
Lemma blanks_len : forall s r, blanks s r -> (String.length r <= String.length s)%nat.
Proof. intros s r (b & _ & ->). rewrite string_length_app. lia. Qed.

(** ** Words *)
Lemma drop_prefix_app : forall t r, drop_prefix t (t ++ r) = Some r.
Proof. induction t as [|c t IH]; simpl; intros r; [reflexivity|]. rewrite Ascii.eqb_refl. apply IH. Qed.
Lemma drop_prefix_some : forall t s r, drop_prefix t s = Some r -> s = t ++ r.
Proof.
  induction t as [|c t IH]; simpl; intros s r H; [congruence|]. destruct s as [|d s]; [discriminate|].
  destruct (Ascii.eqb c d) eqn:E; [|discriminate]. apply Ascii.eqb_eq in E as ->. rewrite (IH _ _ H). reflexivity.
Qed.

Lemma lit_false_inv : forall t s u r, lit t false s = Some (u, r) -> text t s r.
Proof.
  unfold lit, token, text. intros t s u r H. destruct (drop_prefix t s) eqn:E; [|discriminate].
  injection H as _ <-. apply drop_prefix_some, E.
Qed.
Lemma lit_true_inv : forall t s u r, lit t true s = Some (u, r) -> word t s r.
Proof.
  unfold lit, token. intros t s u r H. destruct (drop_prefix t (skip_blanks s)) eqn:E; [|discriminate].
  injection H as _ <-. apply drop_prefix_some in E. exists (skip_blanks s). split; [apply skip_blanks_step|exact E].
Qed.
Lemma lit_false_intro : forall t s r, text t s r -> lit t false s = Some (tt, r).
Proof. unfold lit, token, text. intros t s r ->. rewrite drop_prefix_app. reflexivity. Qed.

Definition solid (t : string) : Prop := exists c r, t = String c r /\ is_blank c = false.
Lemma solid_skip : forall t r, solid t -> skip_blanks (t ++ r) = t ++ r.
Proof. intros t r (c & x & -> & H). simpl. rewrite H. reflexivity. Qed.
Lemma lit_true_intro : forall t s r, solid t -> word t s r -> lit t true s = Some (tt, r).
Proof.
  unfold lit, token. intros t s r S (m & B & ->). rewrite (blanks_skip _ _ B), solid_skip by exact S.
  rewrite drop_prefix_app. reflexivity.
Qed.
Lemma word_nb : forall c t s r, is_blank c = false -> word (String c t) s r -> nb s = Some c.
Proof.
  intros c t s r H (m & B & E). rewrite (blanks_nb _ _ B), E. simpl. apply nb_char, H.
Qed.
Lemma word_len : forall t s r, word t s r -> (String.length t + String.length r <= String.length s)%nat.
Proof. intros t s r (m & B & ->). apply blanks_len in B. rewrite string_length_app in B. exact B. Qed.
Lemma lit_true_fail : forall c t s, nb s <> Some c -> is_blank c = false -> lit (String c t) true s = None.
Proof.
  intros c t s N B. destruct (lit (String c t) true s) as [[u r]|] eqn:E; [|reflexivity].
  apply lit_true_inv in E. apply word_nb in E; [|exact B]. congruence.
Qed.

(** ** Spans *)
Lemma span_app : forall f a r, all_chars f a = true -> not_next f r -> span f (a ++ r) = (a, r).
Proof.
  intros f. induction a as [|c a IH]; simpl; intros r H N.
  - destruct r as [|d r]; simpl in *; [reflexivity|]. rewrite N. reflexivity.
  - apply andb_true_iff in H as [K H]. rewrite K, (IH r H N). reflexivity.
Qed.
Lemma span_inv : forall f s a r, span f s = (a, r) -> all_chars f a = true /\ s = a ++ r /\ not_next f r.
Proof.
  intros f. induction s as [|c s IH]; simpl; intros a r H.
  - injection H as <- <-. simpl. auto.
  - destruct (f c) eqn:K.
    + destruct (span f s) as [a' b'] eqn:E. injection H as <- <-. destruct (IH _ _ eq_refl) as (A & -> & N).
      simpl. rewrite K, A. auto.
    + injection H as <- <-. simpl. rewrite K. auto.
Qed.

Lemma not_next_starts : forall f s, starts_with f s = false <-> not_next f s.
Proof. intros f [|c s]; simpl; split; auto. Qed.

(** ** Names *)
Lemma name_rest_eq : forall c r, name_rest (String c r) =
  if name_char c then let '(a, b) := name_rest r in (String c a, b)
  else if Ascii.eqb c "-" && starts_with name_char r
       then let '(a, b) := name_rest r in (String c a, b) else ("", String c r).
Proof. reflexivity. Qed.
Lemma name_rest_app : forall a r, name_tail a = true -> name_ends r -> name_rest (a ++ r) = (a, r).
Proof.
  intros a. assert (G : forall n a, (String.length a <= n)%nat -> forall r, name_tail a = true -> name_ends r ->
    name_rest (a ++ r) = (a, r)).
  { induction n as [|n IH]; intros [|c b] L r T E; simpl in L; try lia.
    - destruct r as [|d r]; simpl in *; [reflexivity|]. destruct E as [E1 E2]. rewrite E1.
      destruct (Ascii.eqb d "-") eqn:K; [|reflexivity]. apply Ascii.eqb_eq in K. specialize (E2 K).
      destruct r; simpl in *; [reflexivity|]. rewrite E2. reflexivity.
    - destruct r as [|d r]; simpl in *; [reflexivity|]. destruct E as [E1 E2]. rewrite E1.
      destruct (Ascii.eqb d "-") eqn:K; [|reflexivity]. apply Ascii.eqb_eq in K. specialize (E2 K).
      destruct r; simpl in *; [reflexivity|]. rewrite E2. reflexivity.
    - simpl in T. destruct (Ascii.eqb c "-") eqn:K.
      + destruct b as [|d b]; [discriminate|]. apply andb_true_iff in T as [D T].
        assert (TD : name_tail (String d b) = true).
        { simpl. assert (Ascii.eqb d "-" = false) as ->.
          { destruct (Ascii.eqb d "-") eqn:X; [|reflexivity]. apply Ascii.eqb_eq in X. subst. discriminate D. }
          rewrite D, T. reflexivity. }
        assert (H := IH (String d b) ltac:(simpl in *; lia) r TD E).
        apply Ascii.eqb_eq in K. subst c.
        change (String "-" (String d b) ++ r) with (String "-" (String d b ++ r)).
        rewrite name_rest_eq, H. change (starts_with name_char (String d b ++ r)) with (name_char d).
        rewrite D. reflexivity.
      + apply andb_true_iff in T as [D T].
        change (String c b ++ r) with (String c (b ++ r)). rewrite name_rest_eq, D.
        rewrite (IH b ltac:(lia) r T E). reflexivity. }
  intros r. apply (G (String.length a)). lia.
Qed.

Lemma name_rest_inv : forall s a r, name_rest s = (a, r) -> name_tail a = true /\ s = a ++ r /\ name_ends r.
Proof.
  induction s as [|c s IH]; simpl; intros a r H.
  - injection H as <- <-. simpl. auto.
  - destruct (name_char c) eqn:K.
    + destruct (name_rest s) as [a' b'] eqn:E. injection H as <- <-.
      destruct (IH _ _ eq_refl) as (A & -> & N).
      assert (Ascii.eqb c "-" = false) as X.
      { destruct (Ascii.eqb c "-") eqn:X; [|reflexivity]. apply Ascii.eqb_eq in X. subst. discriminate K. }
      simpl. rewrite X, K, A. auto.
    + destruct (Ascii.eqb c "-") eqn:X; simpl in H.
      * destruct (starts_with name_char s) eqn:S.
        -- destruct (name_rest s) as [a' b'] eqn:E. injection H as <- <-.
           destruct (IH _ _ eq_refl) as (A & EQ & N). subst s.
           destruct a' as [|d a'].
           { simpl in S. destruct b' as [|d b']; simpl in *; [discriminate|]. destruct N as [N _]. congruence. }
           simpl in S. simpl in A.
           assert (Ascii.eqb d "-" = false) as X2.
           { destruct (Ascii.eqb d "-") eqn:X2; [|reflexivity]. apply Ascii.eqb_eq in X2. subst. discriminate S. }
           rewrite X2, S in A. simpl in A. cbn [name_tail]. rewrite X, S, A. auto.
        -- injection H as <- <-. simpl. rewrite K. split; [reflexivity|]. split; [reflexivity|].
           split; [reflexivity|]. intros _. apply not_next_starts, S.
      * injection H as <- <-. simpl. rewrite K. split; [reflexivity|]. split; [reflexivity|].
        split; [reflexivity|]. intros ->. discriminate X.
Qed.

Lemma upper_not_blank : forall c, is_upper c = true -> is_blank c = false.
Proof. chars. Qed.
Lemma lower_not_blank : forall c, is_lower c = true -> is_blank c = false.
Proof. chars. Qed.

Definition base (ws : bool) (s : string) : string := if ws then skip_blanks s else s.

Lemma name_with_inv : forall f ws s n r, name_with f ws s = Some (n, r) ->
  exists c t, n = String c t /\ f c = true /\ name_tail t = true /\ base ws s = n ++ r /\ name_ends r.
Proof.
  unfold name_with, token, base. intros f ws s n r H. destruct (if ws then skip_blanks s else s) as [|c x]; [discriminate|].
  destruct (f c) eqn:K; [|discriminate]. destruct (name_rest x) as [a b] eqn:E. injection H as <- <-.
  apply name_rest_inv in E as (A & -> & N). exists c, a. auto.
Qed.
Lemma name_with_intro : forall f ws s c t r, f c = true -> name_tail t = true ->
  base ws s = String c t ++ r -> name_ends r -> name_with f ws s = Some (String c t, r).
Proof.
  unfold name_with, token, base. intros f ws s c t r K T E N. rewrite E. simpl. rewrite K.
  rewrite (name_rest_app _ _ T N). reflexivity.
Qed.

Lemma capital_inv : forall s n r, NameCapital true s = Some (n, r) -> capital n s r.
Proof.
  intros s n r H. apply name_with_inv in H as (c & t & -> & K & T & E & N). exists (skip_blanks s).
  split; [apply skip_blanks_step|]. split; [simpl; rewrite K, T; reflexivity|]. auto.
Qed.
Lemma capital_here_inv : forall s n r, NameCapital false s = Some (n, r) -> capital_here n s r.
Proof.
  intros s n r H. apply name_with_inv in H as (c & t & -> & K & T & E & N).
  split; [simpl; rewrite K, T; reflexivity|]. auto.
Qed.
Lemma lower_case_inv : forall s n r, NameLower true s = Some (n, r) -> lower_case n s r.
Proof.
  intros s n r H. apply name_with_inv in H as (c & t & -> & K & T & E & N). exists (skip_blanks s).
  split; [apply skip_blanks_step|]. split; [simpl; rewrite K, T; reflexivity|]. auto.
Qed.

Lemma capital_split : forall n, is_name_capital n = true ->
  exists c t, n = String c t /\ is_upper c = true /\ name_tail t = true.
Proof. intros [|c t] H; [discriminate|]. apply andb_true_iff in H as [H1 H2]. exists c, t. auto. Qed.
Lemma lower_split : forall n, is_name_lower n = true ->
  exists c t, n = String c t /\ is_lower c = true /\ name_tail t = true.
Proof. intros [|c t] H; [discriminate|]. apply andb_true_iff in H as [H1 H2]. exists c, t. auto. Qed.

Lemma capital_here_intro : forall s n r, capital_here n s r -> NameCapital false s = Some (n, r).
Proof.
  intros s n r (H & E & N). destruct (capital_split _ H) as (c & t & -> & K & T).
  apply name_with_intro; auto.
Qed.
Lemma capital_intro : forall s n r, capital n s r -> NameCapital true s = Some (n, r).
Proof.
  intros s n r (m & B & H & E & N). destruct (capital_split _ H) as (c & t & -> & K & T).
  apply name_with_intro; auto. unfold base. rewrite (blanks_skip _ _ B), E. simpl.
  rewrite (upper_not_blank _ K). reflexivity.
Qed.
Lemma lower_case_intro : forall s n r, lower_case n s r -> NameLower true s = Some (n, r).
Proof.
  intros s n r (m & B & H & E & N). destruct (lower_split _ H) as (c & t & -> & K & T).
  apply name_with_intro; auto. unfold base. rewrite (blanks_skip _ _ B), E. simpl.
  rewrite (lower_not_blank _ K). reflexivity.
Qed.
Lemma capital_nb : forall s n r, capital n s r -> exists c, nb s = Some c /\ is_upper c = true.
Proof.
  intros s n r (m & B & H & E & N). destruct (capital_split _ H) as (c & t & -> & K & T).
  exists c. split; [|exact K]. rewrite (blanks_nb _ _ B), E. simpl. apply nb_char, upper_not_blank, K.
Qed.
Lemma lower_case_nb : forall s n r, lower_case n s r -> exists c, nb s = Some c /\ is_lower c = true.
Proof.
  intros s n r (m & B & H & E & N). destruct (lower_split _ H) as (c & t & -> & K & T).
  exists c. split; [|exact K]. rewrite (blanks_nb _ _ B), E. simpl. apply nb_char, lower_not_blank, K.
Qed.
Lemma capital_len : forall s n r, capital n s r -> (String.length r < String.length s)%nat.
Proof.
  intros s n r (m & B & H & -> & N). destruct (capital_split _ H) as (c & t & -> & K & T).
  apply blanks_len in B. rewrite string_length_app in B. simpl in B. lia.
Qed.
Lemma lower_case_len : forall s n r, lower_case n s r -> (String.length r < String.length s)%nat.
Proof.
  intros s n r (m & B & H & -> & N). destruct (lower_split _ H) as (c & t & -> & K & T).
  apply blanks_len in B. rewrite string_length_app in B. simpl in B. lia.
Qed.
Lemma NameCapital_fail : forall s, (forall c, nb s = Some c -> is_upper c = false) -> NameCapital true s = None.
Proof.
  intros s H. destruct (NameCapital true s) as [[n r]|] eqn:E; [|reflexivity].
  apply capital_inv, capital_nb in E as (c & E & K). specialize (H _ E). congruence.
Qed.
Lemma NameLower_fail : forall s, (forall c, nb s = Some c -> is_lower c = false) -> NameLower true s = None.
Proof.
  intros s H. destruct (NameLower true s) as [[n r]|] eqn:E; [|reflexivity].
  apply lower_case_inv, lower_case_nb in E as (c & E & K). specialize (H _ E). congruence.
Qed.
