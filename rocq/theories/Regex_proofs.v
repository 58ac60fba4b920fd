(** * Proofs: the tokens are those of the regular expressions *)
From Coq Require Import ZifyBool ZifyN ZifyNat.
From Verif Require Import Base PyNum PyStr PyFloat Ast Grammar Regex Spec_Num Spec_Ieee Spec_Grammar Spec_Syntax Spec_Floats Spec_Regex
  Str_proofs Lex_proofs Token_proofs Floats_proofs.

Lemma codes_app : forall a b, codes (a ++ b) = (codes a ++ codes b)%list.
Proof. induction a as [|c a IH]; intros b; [reflexivity|]. unfold codes in *. simpl. f_equal. apply IH. Qed.
Lemma codes_app_inv : forall s a b, codes s = (a ++ b)%list -> exists s1 s2, s = (s1 ++ s2)%string /\ codes s1 = a /\ codes s2 = b.
Proof.
  intros s a. revert s. induction a as [|c a IH]; intros s b H.
  - exists "", s. split; [reflexivity|]. split; [reflexivity|exact H].
  - destruct s as [|d s]; [discriminate|]. injection H as E H. destruct (IH s b H) as (s1 & s2 & -> & E1 & E2).
    exists (String d s1), s2. split; [reflexivity|]. split; [|exact E2]. unfold codes in *. simpl. congruence.
Qed.
Lemma codes_inj : forall a b, codes a = codes b -> a = b.
Proof.
  induction a as [|c a IH]; intros [|d b] H; try discriminate; [reflexivity|]. injection H as E H.
  apply IH in H as ->. f_equal. rewrite <- (ascii_N_embedding c), <- (ascii_N_embedding d), E. reflexivity.
Qed.
Lemma codes_length : forall s, List.length (codes s) = String.length s.
Proof. induction s as [|c s IH]; [reflexivity|]. unfold codes in *. simpl. rewrite IH. reflexivity. Qed.
Lemma codes_cons : forall c s, codes (String c s) = N_of_ascii c :: codes s.
Proof. reflexivity. Qed.

(** ** What can be matched *)
Definition last_code (p : option N) (t : list N) : option N := fold_left (fun _ c => Some c) t p.
Lemma last_app : forall p a b, last_code p (a ++ b) = last_code (last_code p a) b.
Proof. intros p a b. unfold last_code. apply fold_left_app. Qed.
Lemma then_in : forall a b x y, In y (matches (Then a b) x) <-> exists z, In z (matches a x) /\ In y (matches b z).
Proof. intros a b x y. cbn [matches]. apply in_flat_map. Qed.
Lemma or_in : forall a b x y, In y (matches (Or a b) x) <-> In y (matches a x) \/ In y (matches b x).
Proof. intros a b x y. cbn [matches]. apply in_app_iff. Qed.
Lemma maybe_in : forall a x y, In y (matches (Maybe a) x) <-> In y (matches a x) \/ y = x.
Proof. intros a x y. cbn [matches]. rewrite in_app_iff. simpl. intuition. Qed.
Lemma class_in : forall f x y, In y (matches (Class f) x) <-> exists c, snd x = c :: snd y /\ f c = true /\ fst y = Some c.
Proof.
  intros f [p s] [q t]. cbn [matches fst snd]. split.
  - destruct s as [|c s]; [intros []|]. destruct (f c) eqn:F; [|intros []]. intros [E|[]]. inversion E; subst. eauto.
  - intros (c & -> & F & ->). rewrite F. left. reflexivity.
Qed.
Lemma star_in : forall f x y, In y (matches (Star (Class f)) x) <->
  exists t, snd x = (t ++ snd y)%list /\ forallb f t = true /\ fst y = last_code (fst x) t.
Proof.
  intros f x y. cbn [matches]. remember (List.length (snd x)) as n eqn:L. assert (G : (List.length (snd x) <= n)%nat) by lia. clear L.
  revert x G. induction n as [|n IH]; intros [p s] G; cbn [repeat_match fst snd] in *.
  - destruct s; [|simpl in G; lia]. split.
    + intros [<-|[]]. exists []. auto.
    + intros (t & E & _ & P). destruct t; [|discriminate]. destruct y as [q u]. cbn [fst snd app] in *. subst. left. reflexivity.
  - rewrite in_app_iff, in_flat_map. split.
    + intros [((q & u) & F & H)|[<-|[]]]; [|exists []; auto]. apply filter_In in F as (F & _).
      apply (class_in f (p, s)) in F as (c & E & F & P). cbn [fst snd] in *. subst s q.
      apply IH in H as (t & E & A & P); [|simpl in *; lia]. exists (c :: t). cbn [fst snd] in *. rewrite E. split; [reflexivity|].
      simpl. rewrite F, A. split; [reflexivity|exact P].
    + intros (t & E & A & P). destruct t as [|c t].
      * right. left. destruct y as [q u]. cbn [fst snd app] in *. subst. reflexivity.
      * left. simpl in A. apply andb_true_iff in A as (A1 & A2). exists (Some c, (t ++ snd y)%list). split.
        -- apply filter_In. split; [rewrite E; cbn [app]; rewrite A1; left; reflexivity|]. cbn [snd]. rewrite E. simpl. apply Nat.ltb_lt. lia.
        -- apply IH; [rewrite E in G; simpl in *; lia|]. exists t. auto.
Qed.
Lemma plus_in : forall f x y, In y (matches (Plus (Class f)) x) <->
  exists t, t <> [] /\ snd x = (t ++ snd y)%list /\ forallb f t = true /\ fst y = last_code (fst x) t.
Proof.
  intros f x y. unfold Plus. rewrite then_in. split.
  - intros (z & A & B). apply class_in in A as (c & E & F & P). apply star_in in B as (t & E' & A & P').
    exists (c :: t). split; [discriminate|]. rewrite E, E'. split; [reflexivity|]. simpl. rewrite F, A. split; [reflexivity|]. rewrite P', P. reflexivity.
  - intros (t & N & E & A & P). destruct t as [|c t]; [congruence|]. simpl in A. apply andb_true_iff in A as (A1 & A2).
    exists (Some c, (t ++ snd y)%list). split; [apply class_in; exists c; auto|]. apply star_in. exists t. auto.
Qed.
Lemma first_same : forall (l : list state) y, (forall z, In z l -> snd z = snd y) -> In y l -> option_map snd (hd_error l) = Some (snd y).
Proof. intros [|z l] y A I; [destruct I|]. simpl. rewrite (A z); [reflexivity|left; reflexivity]. Qed.
Lemma first_none : forall l : list state, (forall z, ~ In z l) -> option_map snd (hd_error l) = None.
Proof. intros [|z l] A; [reflexivity|]. destruct (A z). left. reflexivity. Qed.

Lemma last_cons : forall p a t, last_code p (codes (String a t)) = last_code (Some (N_of_ascii a)) (codes t).
Proof. reflexivity. Qed.
Lemma last_codes : forall p a b, last_code p (codes (a ++ b)) = last_code (last_code p (codes a)) (codes b).
Proof. intros p a b. rewrite codes_app. apply last_app. Qed.

(** ** Classes on ASCII texts *)
Lemma ascii_app : forall a b, ascii_text (a ++ b) = ascii_text a && ascii_text b.
Proof. induction a as [|c a IH]; intros b; [reflexivity|]. simpl. rewrite IH. apply andb_assoc. Qed.
Lemma classes : forall (f : N -> bool) (g : ascii -> bool) s, (forall c, ascii_char c = true -> f (N_of_ascii c) = g c) ->
  ascii_text s = true -> forallb f (codes s) = all_chars g s.
Proof.
  intros f g s E. induction s as [|c s IH]; intros A; [reflexivity|]. simpl in A. apply andb_true_iff in A as (A1 & A2).
  rewrite codes_cons. simpl. rewrite (E c A1), (IH A2). reflexivity.
Qed.
Section Standard.
Variables digit word : N -> bool.
Hypothesis St : standard digit word.
Lemma digit_ok : forall c, ascii_char c = true -> digit (N_of_ascii c) = is_digit c.
Proof. intros c A. unfold ascii_char in A. apply N.ltb_lt in A. destruct (St _ A) as (-> & _). reflexivity. Qed.
Lemma word_ok : forall c, ascii_char c = true -> word (N_of_ascii c) = letter_digit_underscore c.
Proof.
  intros c A. unfold ascii_char in A. apply N.ltb_lt in A. destruct (St _ A) as (_ & ->). unfold letter_digit_underscore, is_lower, is_upper, is_digit.
  cbv zeta. f_equal. destruct (Ascii.eqb_spec c "_") as [->|N]; [reflexivity|]. apply N.eqb_neq. intros E. apply N.
  rewrite <- (ascii_N_embedding c), E. reflexivity.
Qed.
Lemma char_ok : forall a c, char a (N_of_ascii c) = Ascii.eqb c a.
Proof.
  intros a c. unfold char. destruct (Ascii.eqb_spec c a) as [->|N]; [apply N.eqb_refl|]. apply N.eqb_neq. intros E. apply N.
  rewrite <- (ascii_N_embedding c), E. apply ascii_N_embedding.
Qed.
Lemma az_ok : forall c, az (N_of_ascii c) = is_lower c. Proof. reflexivity. Qed.
Lemma AZ_ok : forall c, AZ (N_of_ascii c) = is_upper c. Proof. reflexivity. Qed.
Lemma d09_ok : forall c, d09 (N_of_ascii c) = is_digit c. Proof. reflexivity. Qed.
Lemma next_ok : forall (f : N -> bool) (g : ascii -> bool) s, (forall c, ascii_char c = true -> f (N_of_ascii c) = g c) ->
  ascii_text s = true -> is_some f (hd_error (codes s)) = false <-> not_next g s.
Proof.
  intros f g [|c s] E A; simpl; [split; auto|]. simpl in A. apply andb_true_iff in A as (A & _). rewrite (E c A). reflexivity.
Qed.

(** ** Integers *)
Definition sign_text (s : string) : Prop := s = "" \/ s = "-" \/ s = "+".
Lemma sign_in : forall f p s y, (forall c, f (N_of_ascii c) = Ascii.eqb c "-" || Ascii.eqb c "+") ->
  In y (matches (Maybe (Class f)) (p, codes s)) <-> exists sg r, s = (sg ++ r)%string /\ sign_text sg /\ y = (last_code p (codes sg), codes r).
Proof.
  intros f p s y F. rewrite maybe_in, class_in. cbn [fst snd]. split.
  - intros [(c & E & Fc & P)| ->]; [|exists "", s; split; [reflexivity|]; split; [left; reflexivity|reflexivity]].
    destruct s as [|a s]; [discriminate|]. rewrite codes_cons in E. injection E as <- E. rewrite F in Fc.
    exists (String a ""), s. split; [reflexivity|]. split.
    + apply orb_true_iff in Fc as [Fc|Fc]; apply Ascii.eqb_eq in Fc as ->; unfold sign_text; auto.
    + destruct y as [q u]. cbn [fst snd] in *. subst. reflexivity.
  - intros (sg & r & -> & S & ->). destruct S as [-> |S]; [right; reflexivity|]. left.
    assert (X : exists a, sg = String a "" /\ Ascii.eqb a "-" || Ascii.eqb a "+" = true) by (destruct S as [-> | ->]; eexists; split; reflexivity).
    destruct X as (a & -> & X). exists (N_of_ascii a). split; [reflexivity|]. rewrite F. auto.
Qed.
Lemma sign_text_iff : forall sg, sign_text sg <-> exists neg, signs neg sg.
Proof.
  intros sg. unfold sign_text, signs. split; [intros [->|[->| ->]]; [exists false|exists true|exists false]; auto|].
  intros ([] & H); tauto.
Qed.
Lemma last_digits : forall (f : N -> bool) p ds, ds <> "" -> forallb f (codes ds) = true -> is_some f (last_code p (codes ds)) = true.
Proof.
  intros f p ds N A. destruct ds as [|c ds]; [congruence|]. clear N. revert p c A. induction ds as [|d ds IH]; intros p c A.
  - simpl in *. rewrite andb_true_r in A. exact A.
  - rewrite codes_cons in *. unfold last_code in *. simpl in *. apply andb_true_iff in A as (_ & A). apply (IH p d A).
Qed.
Lemma codes_nonempty : forall s, codes s <> [] <-> s <> "".
Proof.
  intros [|c s]; split; intros H E; try discriminate; apply H; reflexivity.
Qed.
Lemma decimal_all : forall ds, ds <> "" -> all_chars is_digit ds = true -> exists n, decimal ds n.
Proof. intros ds A B. exists (digits_value 0 ds). apply decimal_iff. auto. Qed.
Lemma word_digits : forall ds, ascii_text ds = true -> all_chars is_digit ds = true -> forallb word (codes ds) = true.
Proof.
  intros ds A B. rewrite (classes word letter_digit_underscore ds word_ok A). clear A. induction ds as [|c ds IH]; [reflexivity|].
  simpl in *. apply andb_true_iff in B as (B & C). rewrite (IH C), andb_true_r. unfold letter_digit_underscore. rewrite B, !orb_true_r. reflexivity.
Qed.
Lemma then_intro : forall a b x z y, In z (matches a x) -> In y (matches b z) -> In y (matches (Then a b) x).
Proof. intros a b x z y A B. apply then_in. eauto. Qed.
Lemma edge_in : forall w x y, In y (matches (Edge w) x) <-> y = x /\ is_some w (fst x) <> is_some w (hd_error (snd x)).
Proof.
  intros w x y. cbn [matches]. destruct (eqb _ _) eqn:E; [apply eqb_prop in E|apply eqb_false_iff in E]; simpl; intuition congruence.
Qed.
Lemma minus_plus : forall c, char "-" (N_of_ascii c) || char "+" (N_of_ascii c) = Ascii.eqb c "-" || Ascii.eqb c "+".
Proof. intros c. rewrite !char_ok. reflexivity. Qed.
Lemma plus_minus : forall c, char "+" (N_of_ascii c) || char "-" (N_of_ascii c) = Ascii.eqb c "-" || Ascii.eqb c "+".
Proof. intros c. rewrite !char_ok. apply orb_comm. Qed.
Lemma int_sound : forall p s y, ascii_text s = true -> In y (matches (int_regex word) (p, codes s)) ->
  exists z r, int_here z s r /\ snd y = codes r.
Proof.
  intros p s y A H. unfold int_regex in H. apply then_in in H as (x & H1 & H2). apply (sign_in _ p s x minus_plus) in H1 as (sg & s1 & -> & Sg & ->).
  apply then_in in H2 as (x & H2 & H3). apply plus_in in H2 as (t & T0 & E & F & P). cbn [fst snd] in *.
  apply codes_app_inv in E as (ds & r & -> & <- & E). apply edge_in in H3 as (-> & W).
  rewrite !ascii_app in A. apply andb_true_iff in A as (_ & A). apply andb_true_iff in A as (A1 & A2).
  rewrite (classes d09 is_digit ds) in F by (auto using d09_ok). rewrite codes_nonempty in T0.
  rewrite P, (last_digits word) in W by (auto using word_digits). rewrite <- E in W.
  apply sign_text_iff in Sg as (neg & Sg). destruct (decimal_all ds T0 F) as (n & D).
  exists (if neg then (- n)%Z else n), r. split; [|symmetry; exact E]. exists neg, sg, ds, n. split; [exact Sg|]. split; [exact D|]. split; [reflexivity|].
  split; [|reflexivity]. apply (next_ok word _ r word_ok A2). destruct (is_some word (hd_error (codes r))); congruence.
Qed.
Lemma int_complete : forall p s z r, ascii_text s = true -> int_here z s r -> exists q, In (q, codes r) (matches (int_regex word) (p, codes s)).
Proof.
  intros p s z r A (neg & sg & ds & n & Sg & D & -> & W & _). apply decimal_iff in D as (T0 & F & _).
  rewrite !ascii_app in A. apply andb_true_iff in A as (_ & A). apply andb_true_iff in A as (A1 & A2).
  assert (F' : forallb d09 (codes ds) = true) by (rewrite (classes d09 is_digit ds); auto using d09_ok).
  eexists. unfold int_regex. eapply then_intro.
  - apply (sign_in _ p _ _ minus_plus). exists sg, (ds ++ r)%string. split; [reflexivity|]. split; [apply sign_text_iff; eauto|reflexivity].
  - apply then_intro with (last_code (last_code p (codes sg)) (codes ds), codes r).
    + apply plus_in. exists (codes ds). split; [apply codes_nonempty, T0|]. cbn [fst snd]. split; [rewrite codes_app; reflexivity|]. split; [exact F'|reflexivity].
    + apply edge_in. split; [reflexivity|]. cbn [fst snd]. apply (next_ok word _ r word_ok A2) in W. rewrite W, (last_digits word) by (auto using word_digits). discriminate.
Qed.
Theorem int_regex_ok : forall p s, ascii_text s = true ->
  match_here (int_regex word) p (codes s) = option_map (fun x => codes (snd x)) (INT false s).
Proof.
  intros p s A. unfold match_here. destruct (INT false s) as [[z r]|] eqn:E; cbn [option_map snd].
  - apply (INT_inv false) in E. destruct (int_complete p s z r A E) as (q & I). apply (first_same _ (q, codes r)); [|exact I].
    intros y Y. destruct (int_sound p s y A Y) as (z' & r' & H & ->). apply (INT_base false) in E, H. rewrite E in H. injection H as _ ->. reflexivity.
  - apply first_none. intros y Y. destruct (int_sound p s y A Y) as (z' & r' & H & _). apply (INT_base false) in H. congruence.
Qed.

(** ** Floats *)
Lemma behind_in : forall f x y, In y (matches (Behind f) x) <-> y = x /\ is_some f (fst x) = true.
Proof. intros f x y. cbn [matches]. destruct (is_some f (fst x)); simpl; intuition congruence. Qed.
Lemma ahead_in : forall f x y, In y (matches (NotAhead f) x) <-> y = x /\ is_some f (hd_error (snd x)) = false.
Proof. intros f x y. cbn [matches]. destruct (is_some f (hd_error (snd x))); simpl; intuition congruence. Qed.
Lemma one_in : forall f a p s y, (forall c, f (N_of_ascii c) = Ascii.eqb c a) ->
  In y (matches (Class f) (p, codes s)) <-> exists r, s = String a r /\ y = (Some (N_of_ascii a), codes r).
Proof.
  intros f a p s y F. rewrite class_in. cbn [fst snd]. split.
  - intros (c & E & Fc & P). destruct s as [|d s]; [discriminate|]. rewrite codes_cons in E. injection E as <- E. rewrite F in Fc. apply Ascii.eqb_eq in Fc as ->.
    exists s. split; [reflexivity|]. destruct y as [q u]. cbn [fst snd] in *. subst. reflexivity.
  - intros (r & -> & ->). exists (N_of_ascii a). rewrite F, Ascii.eqb_refl. auto.
Qed.
Lemma digits_in : forall p s y, ascii_text s = true -> In y (matches (Star (Class digit)) (p, codes s)) <->
  exists ds r, s = (ds ++ r)%string /\ all_chars is_digit ds = true /\ y = (last_code p (codes ds), codes r).
Proof.
  intros p s y A. rewrite star_in. cbn [fst snd]. split.
  - intros (t & E & F & P). apply codes_app_inv in E as (ds & r & -> & <- & E). rewrite ascii_app in A. apply andb_true_iff in A as (A & _).
    rewrite (classes digit is_digit ds digit_ok A) in F. exists ds, r. split; [reflexivity|]. split; [exact F|]. destruct y. cbn [fst snd] in *. congruence.
  - intros (ds & r & -> & F & ->). rewrite ascii_app in A. apply andb_true_iff in A as (A & _). exists (codes ds). rewrite codes_app.
    split; [reflexivity|]. rewrite (classes digit is_digit ds digit_ok A). auto.
Qed.
Lemma some_digits_in : forall p s y, ascii_text s = true -> In y (matches (Plus (Class digit)) (p, codes s)) <->
  exists ds r, s = (ds ++ r)%string /\ ds <> "" /\ all_chars is_digit ds = true /\ y = (last_code p (codes ds), codes r).
Proof.
  intros p s y A. rewrite plus_in. cbn [fst snd]. split.
  - intros (t & N & E & F & P). apply codes_app_inv in E as (ds & r & -> & <- & E). rewrite ascii_app in A. apply andb_true_iff in A as (A & _).
    rewrite (classes digit is_digit ds digit_ok A) in F. exists ds, r. split; [reflexivity|]. split; [apply codes_nonempty, N|]. split; [exact F|]. destruct y. cbn [fst snd] in *. congruence.
  - intros (ds & r & -> & N & F & ->). rewrite ascii_app in A. apply andb_true_iff in A as (A & _). exists (codes ds). rewrite codes_app.
    split; [apply codes_nonempty, N|]. split; [reflexivity|]. rewrite (classes digit is_digit ds digit_ok A). auto.
Qed.
Definition expo_text (t : string) : Prop :=
  exists e sg xs, (e = "e" \/ e = "E") /\ sign_text sg /\ xs <> "" /\ all_chars is_digit xs = true /\ t = (e ++ sg ++ xs)%string.
Lemma expo_in : forall p s y, ascii_text s = true -> In y (matches (exponent_regex digit) (p, codes s)) <->
  exists t r, s = (t ++ r)%string /\ expo_text t /\ y = (last_code p (codes t), codes r).
Proof.
  intros p s y A. unfold exponent_regex. rewrite then_in. split.
  - intros (x & H1 & H2). apply class_in in H1 as (c & E & F & P). cbn [fst snd] in *. destruct s as [|a s]; [discriminate|].
    rewrite codes_cons in E. injection E as <- E. destruct x as [q u]. cbn [fst snd] in *. subst q u. rewrite !char_ok in F.
    apply then_in in H2 as (x & H2 & H3). apply (sign_in _ _ s x plus_minus) in H2 as (sg & s1 & -> & Sg & ->).
    simpl in A. apply andb_true_iff in A as (_ & A). rewrite ascii_app in A. apply andb_true_iff in A as (_ & A).
    apply (some_digits_in _ _ _ A) in H3 as (xs & r & -> & N & D & ->).
    exists (String a (sg ++ xs)), r. split; [simpl; rewrite string_app_assoc; reflexivity|]. split.
    + exists (String a ""), sg, xs. split; [|auto]. apply orb_true_iff in F as [F|F]; apply Ascii.eqb_eq in F as ->; auto.
    + rewrite last_cons, last_codes. reflexivity.
  - intros (t & r & -> & (e & sg & xs & He & Sg & N & D & ->) & ->).
    assert (X : exists a, e = String a "" /\ Ascii.eqb a "e" || Ascii.eqb a "E" = true) by (destruct He as [-> | ->]; eexists; split; reflexivity).
    destruct X as (a & -> & X). exists (Some (N_of_ascii a), codes (sg ++ xs ++ r)). split.
    + apply class_in. exists (N_of_ascii a). cbn [fst snd]. split; [simpl; rewrite <- string_app_assoc; reflexivity|]. rewrite !char_ok. auto.
    + simpl in A. apply andb_true_iff in A as (_ & A). rewrite <- string_app_assoc in A. rewrite ascii_app in A. apply andb_true_iff in A as (_ & A).
      eapply then_intro; [apply (sign_in _ _ _ _ plus_minus); exists sg, (xs ++ r)%string; auto|].
      apply (some_digits_in _ _ _ A). exists xs, r. split; [reflexivity|]. split; [exact N|]. split; [exact D|].
      change (String a "" ++ sg ++ xs)%string with (String a (sg ++ xs)). rewrite last_cons, last_codes. reflexivity.
Qed.
(** [re] matches the texts [T]. *)
Definition reads_text (re : regex) (T : string -> Prop) : Prop := forall p s y, ascii_text s = true ->
  In y (matches re (p, codes s)) <-> exists t r, s = (t ++ r)%string /\ T t /\ y = (last_code p (codes t), codes r).
Lemma reads_then : forall a b A B, reads_text a A -> reads_text b B ->
  reads_text (Then a b) (fun t => exists u v, A u /\ B v /\ t = (u ++ v)%string).
Proof.
  intros a b A B HA HB p s y As. rewrite then_in. split.
  - intros (z & H1 & H2). apply (HA _ _ _ As) in H1 as (u & s1 & -> & TA & ->). rewrite ascii_app in As. apply andb_true_iff in As as (_ & As).
    apply (HB _ _ _ As) in H2 as (v & r & -> & TB & ->). exists (u ++ v)%string, r. split; [apply string_app_assoc|].
    split; [exists u, v; auto|]. rewrite last_codes. reflexivity.
  - intros (t & r & -> & (u & v & TA & TB & ->) & ->). exists (last_code p (codes u), codes (v ++ r)). split.
    + apply (HA _ _ _ As). exists u, (v ++ r)%string. split; [symmetry; apply string_app_assoc|auto].
    + rewrite <- string_app_assoc, ascii_app in As. apply andb_true_iff in As as (_ & As). apply (HB _ _ _ As). exists v, r.
      split; [reflexivity|]. split; [exact TB|]. rewrite last_codes. reflexivity.
Qed.
Lemma reads_or : forall a b A B, reads_text a A -> reads_text b B -> reads_text (Or a b) (fun t => A t \/ B t).
Proof.
  intros a b A B HA HB p s y As. rewrite or_in, (HA _ _ _ As), (HB _ _ _ As). split.
  - intros [(t & r & H1 & H2 & H3)|(t & r & H1 & H2 & H3)]; exists t, r; auto.
  - intros (t & r & H1 & [H2|H2] & H3); [left|right]; exists t, r; auto.
Qed.
Lemma reads_maybe : forall a A, reads_text a A -> reads_text (Maybe a) (fun t => A t \/ t = "").
Proof.
  intros a A HA p s y As. rewrite maybe_in, (HA _ _ _ As). split.
  - intros [(t & r & H1 & H2 & H3)| ->]; [exists t, r; auto|]. exists "", s. auto.
  - intros (t & r & -> & [H2| ->] & ->); [left; exists t, r; auto|right; reflexivity].
Qed.
Lemma reads_ext : forall a A B, (forall t, A t <-> B t) -> reads_text a A -> reads_text a B.
Proof.
  intros a A B E HA p s y As. rewrite (HA _ _ _ As). split; intros (t & r & H1 & H2 & H3); exists t, r; rewrite E in *; auto.
Qed.
Lemma reads_sign : reads_text sign_regex sign_text.
Proof. intros p s y _. exact (sign_in _ p s y plus_minus). Qed.
Lemma reads_digits : reads_text (Star (Class digit)) (fun t => all_chars is_digit t = true).
Proof. intros p s y A. apply digits_in, A. Qed.
Lemma reads_some_digits : reads_text (Plus (Class digit)) (fun t => t <> "" /\ all_chars is_digit t = true).
Proof.
  intros p s y A. rewrite (some_digits_in _ _ _ A). split; [intros (t & r & H1 & H2 & H3 & H4)|intros (t & r & H1 & (H2 & H3) & H4)]; exists t, r; auto.
Qed.
Lemma reads_point : reads_text point_regex (fun t => t = ".").
Proof.
  intros p s y A. unfold point_regex. rewrite (one_in _ "." p s y (char_ok ".")). split.
  - intros (r & -> & ->). exists ".", r. auto.
  - intros (t & r & -> & -> & ->). exists r. auto.
Qed.
Lemma reads_expo : reads_text (exponent_regex digit) expo_text.
Proof. intros p s y A. apply expo_in, A. Qed.

Definition core_text (t : string) : Prop := exists ds fs point expo,
  (ds ++ fs <> "")%string /\ all_chars is_digit (ds ++ fs) = true /\ (point = "" /\ fs = "" \/ point = ".")
  /\ (expo = "" \/ expo_text expo) /\ (point <> "" \/ expo <> "") /\ t = (ds ++ point ++ fs ++ expo)%string.
Definition core_regex : regex :=
  Or (Then (Or (Then (Plus (Class digit)) (Then point_regex (Maybe (Star (Class digit))))) (Then point_regex (Plus (Class digit))))
           (Maybe (exponent_regex digit)))
     (Then (Plus (Class digit)) (exponent_regex digit)).
Lemma expo_nonempty : forall t, expo_text t -> t <> "".
Proof. intros t (e & sg & xs & [-> | ->] & _ & _ & _ & ->); discriminate. Qed.
Lemma reads_core : reads_text core_regex core_text.
Proof.
  unfold core_regex. eapply reads_ext; [|repeat first [apply reads_expo|apply reads_point|apply reads_some_digits|apply reads_digits|apply reads_or|apply reads_then|apply reads_maybe]].
  intros t. cbv beta. split.
  - intros [(u & expo & [(ds & v & (D0 & D) & (pt & fs & -> & Fs & ->) & ->)|(pt & fs & -> & (F0 & Fs) & ->)] & Ex & ->)|(ds & expo & (D0 & D) & Ex & ->)].
    + assert (Fs' : all_chars is_digit fs = true) by (destruct Fs as [Fs| ->]; [exact Fs|reflexivity]).
      exists ds, fs, ".", expo. split; [destruct ds; [destruct (D0 eq_refl)|discriminate]|]. split; [rewrite all_chars_app, D, Fs'; reflexivity|].
      split; [auto|]. split; [destruct Ex; auto|]. split; [left; discriminate|]. rewrite <- !string_app_assoc. reflexivity.
    + exists "", fs, ".", expo. split; [exact F0|]. split; [exact Fs|]. split; [auto|]. split; [destruct Ex; auto|]. split; [left; discriminate|].
      rewrite <- !string_app_assoc. reflexivity.
    + exists ds, "", "", expo. rewrite string_app_nil. split; [exact D0|]. split; [exact D|]. split; [auto|]. split; [auto|].
      split; [right; apply expo_nonempty, Ex|reflexivity].
  - intros (ds & fs & point & expo & N & D & P & Ex & O & ->). rewrite all_chars_app in D. apply andb_true_iff in D as (D & Fs).
    destruct P as [(-> & ->)| ->].
    + right. destruct Ex as [-> |Ex]; [destruct O; congruence|]. rewrite string_app_nil in N. exists ds, expo. auto.
    + left. exists (ds ++ "." ++ fs)%string, expo. split; [|split; [destruct Ex; auto|rewrite <- !string_app_assoc; reflexivity]].
      destruct ds as [|c ds].
      * right. exists ".", fs. auto.
      * left. exists (String c ds), ("." ++ fs)%string. split; [split; [discriminate|exact D]|]. split; [|reflexivity].
        exists ".", fs. auto.
Qed.
Lemma word_point_ok : forall c, ascii_char c = true -> word (N_of_ascii c) || char "." (N_of_ascii c) = letter_digit_underscore c || Ascii.eqb c ".".
Proof. intros c A. rewrite (word_ok c A), char_ok. reflexivity. Qed.
Lemma last_of : forall p t c, last_code p (codes (t ++ String c "")) = Some (N_of_ascii c).
Proof. intros p t c. rewrite last_codes. reflexivity. Qed.
Lemma digits_last : forall f t, f <> "" -> all_chars is_digit f = true -> exists u c, (t ++ f = u ++ String c "")%string /\ is_digit c = true.
Proof.
  intros f. induction f as [|c f IH]; intros t N A; [congruence|]. simpl in A. apply andb_true_iff in A as (A1 & A2). destruct f as [|d f].
  - exists t, c. auto.
  - destruct (IH (t ++ String c "")%string ltac:(discriminate) A2) as (u & e & E & D). exists u, e. split; [|exact D].
    rewrite <- E, <- string_app_assoc. reflexivity.
Qed.
Lemma core_last : forall t, core_text t -> exists u c, t = (u ++ String c "")%string /\ (is_digit c = true \/ c = "."%char).
Proof.
  intros t (ds & fs & point & expo & N & D & P & Ex & O & ->).
  destruct Ex as [-> |(e & sg & xs & _ & _ & X0 & X & ->)].
  - rewrite string_app_nil. destruct P as [(-> & ->)| ->]; [destruct O; congruence|]. destruct fs as [|c fs].
    + exists ds, "."%char. auto.
    + rewrite all_chars_app in D. apply andb_true_iff in D as (_ & D). destruct (digits_last (String c fs) (ds ++ ".") ltac:(discriminate) D) as (u & d & E & Dd).
      exists u, d. split; [rewrite <- E, <- string_app_assoc; reflexivity|auto].
  - destruct (digits_last xs (ds ++ point ++ fs ++ e ++ sg) X0 X) as (u & c & E & C). exists u, c. split; [|auto]. rewrite <- E, <- !string_app_assoc. reflexivity.
Qed.
Lemma expo_value : forall expo, expo = "" \/ expo_text expo -> exists x, expo = "" /\ x = 0%Z
   \/ exists e neg' sg' xs y, (e = "e" \/ e = "E") /\ signs neg' sg' /\ decimal xs y /\ expo = (e ++ sg' ++ xs)%string /\ x = if neg' then (- y)%Z else y.
Proof.
  intros expo [-> |(e & sg & xs & He & Sg & N & D & ->)]; [exists 0%Z; auto|].
  apply sign_text_iff in Sg as (neg & Sg). destruct (decimal_all xs N D) as (y & Y). exists (if neg then (- y)%Z else y). right. exists e, neg, sg, xs, y. auto.
Qed.
Lemma float_sound : forall p s y, ascii_text s = true -> In y (matches (strictfloat_regex digit word) (p, codes s)) ->
  exists f r, float_here f s r /\ snd y = codes r.
Proof.
  intros p s y A H. unfold strictfloat_regex in H. apply then_in in H as (x & H1 & H2). apply (reads_sign _ _ _ A) in H1 as (sg & s1 & -> & Sg & ->).
  rewrite ascii_app in A. apply andb_true_iff in A as (_ & A). apply then_in in H2 as (x & H2 & H3). apply (reads_core _ _ _ A) in H2 as (t & r & -> & C & ->).
  rewrite ascii_app in A. apply andb_true_iff in A as (_ & A). apply then_in in H3 as (x & H3 & H4). apply behind_in in H3 as (-> & _). apply ahead_in in H4 as (-> & W).
  cbn [fst snd] in W |- *. apply (next_ok _ _ r word_point_ok A) in W.
  destruct C as (ds & fs & point & expo & N & D & P & Ex & O & ->). apply sign_text_iff in Sg as (neg & Sg). destruct (decimal_all _ N D) as (n & Dn).
  destruct (expo_value expo Ex) as (x & X). exists (py_float neg n (x - Z.of_nat (String.length fs))), r. split; [|reflexivity].
  exists neg, sg, ds, fs, n, point, expo, x. split; [exact Sg|]. split; [exact Dn|]. split; [exact P|]. split; [exact X|]. split; [exact O|].
  split; [rewrite <- !string_app_assoc; reflexivity|]. split; [exact W|reflexivity].
Qed.
Lemma float_complete : forall p s f r, ascii_text s = true -> float_here f s r ->
  exists q, In (q, codes r) (matches (strictfloat_regex digit word) (p, codes s)).
Proof.
  intros p s f r A (neg & sg & ds & fs & n & point & expo & x & Sg & D & P & X & O & -> & W & _).
  apply decimal_iff in D as (N & D & _).
  assert (C : core_text (ds ++ point ++ fs ++ expo)).
  { exists ds, fs, point, expo. split; [exact N|]. split; [exact D|]. split; [exact P|]. split; [|auto].
    destruct X as [(-> & _)|(e & neg' & sg' & xs & y & He & Sg' & Dx & -> & _)]; [auto|]. right. apply decimal_iff in Dx as (N' & D' & _).
    exists e, sg', xs. split; [exact He|]. split; [apply sign_text_iff; eauto|auto]. }
  set (t := (ds ++ point ++ fs ++ expo)%string) in *.
  assert (E : (ds ++ point ++ fs ++ expo ++ r = t ++ r)%string) by (unfold t; rewrite <- !string_app_assoc; reflexivity).
  rewrite E in *. assert (A' := A). rewrite !ascii_app in A'. apply andb_true_iff in A' as (_ & A'). apply andb_true_iff in A' as (At & Ar).
  assert (Atr : ascii_text (t ++ r) = true) by (rewrite ascii_app, At, Ar; reflexivity).
  exists (last_code (last_code p (codes sg)) (codes t)). unfold strictfloat_regex.
  apply then_intro with (last_code p (codes sg), codes (t ++ r)).
  - apply (reads_sign _ _ _ A). exists sg, (t ++ r)%string. split; [reflexivity|]. split; [apply sign_text_iff; eauto|reflexivity].
  - apply then_intro with (last_code (last_code p (codes sg)) (codes t), codes r).
    + apply (reads_core _ _ _ Atr). exists t, r. auto.
    + apply then_intro with (last_code (last_code p (codes sg)) (codes t), codes r).
      * apply behind_in. split; [reflexivity|]. cbn [fst]. destruct (core_last t C) as (u & c & Eu & Dc). rewrite Eu, last_of. cbn [is_some].
        rewrite Eu, ascii_app in At. apply andb_true_iff in At as (_ & Ac). simpl in Ac. rewrite andb_true_r in Ac. rewrite (word_point_ok c Ac).
        destruct Dc as [Dc| ->]; [unfold letter_digit_underscore; rewrite Dc, !orb_true_r; reflexivity|reflexivity].
      * apply ahead_in. split; [reflexivity|]. cbn [snd]. apply (next_ok _ _ r word_point_ok Ar), W.
Qed.
Theorem float_regex_ok : forall p s, ascii_text s = true ->
  match_here (strictfloat_regex digit word) p (codes s) = option_map (fun x => codes (snd x)) (STRICTFLOAT false s).
Proof.
  intros p s A. unfold match_here. destruct (STRICTFLOAT false s) as [[z r]|] eqn:E; cbn [option_map snd].
  - apply (STRICTFLOAT_inv false) in E. destruct (float_complete p s z r A E) as (q & I). apply (first_same _ (q, codes r)); [|exact I].
    intros y Y. destruct (float_sound p s y A Y) as (z' & r' & H & ->). apply (STRICTFLOAT_base false) in E, H. rewrite E in H. injection H as _ ->. reflexivity.
  - apply first_none. intros y Y. destruct (float_sound p s y A Y) as (z' & r' & H & _). apply (STRICTFLOAT_base false) in H. congruence.
Qed.

(** ** Comments *)
Lemma line_in : forall x y, In y (matches LineEnd x) <-> y = x /\ (snd x = [] \/ exists l, snd x = 10%N :: l).
Proof.
  intros x y. cbn [matches]. destruct (snd x) as [|c l]; [simpl; intuition|]. destruct (N.eqb_spec c 10) as [-> |Ne]; simpl.
  - split; [intros [->|[]]; eauto|intros (-> & _); auto].
  - split; [intros []|]. intros (_ & [H|(l' & H)]); congruence.
Qed.
Lemma line_ok : forall r, codes r = [] \/ (exists l, codes r = 10%N :: l) <-> line_ends r.
Proof.
  intros [|c r]; unfold line_ends.
  - split; auto.
  - rewrite codes_cons. split.
    + intros [H|(l & H)]; [discriminate|]. injection H as H _. right. exists r. rewrite <- (ascii_N_embedding c), H. reflexivity.
    + intros [H|(l & H)]; [discriminate|]. injection H as -> ->. right. eexists. reflexivity.
Qed.
Definition comment_set (c : N) : bool := AZ c || az c || d09 c || char "*" c || char "(" c || char ")" c || char "." c || char "/" c
                              || char "%" c || char ":" c || char "," c || range 32 95 c.
Lemma comment_ok : forall c, comment_set (N_of_ascii c) = comment_char c.
Proof. chars. Qed.
Theorem comment_regex_ok : forall p s, ascii_text s = true ->
  match_here comment_regex p (codes s) = option_map (fun x => codes (snd x)) (comment_text false s).
Proof.
  intros p s A. unfold match_here.
  assert (Sound : forall y, In y (matches comment_regex (p, codes s)) -> exists t r, text_here t s r /\ snd y = codes r).
  { intros y H. unfold comment_regex in H. fold comment_set in H. apply then_in in H as (x & H1 & H2). apply plus_in in H1 as (t & N & E & F & P). cbn [fst snd] in *.
    apply codes_app_inv in E as (u & r & -> & <- & E). apply line_in in H2 as (-> & L). rewrite <- E in L. apply line_ok in L.
    rewrite ascii_app in A. apply andb_true_iff in A as (A & _).
    rewrite (classes comment_set comment_char u (fun c _ => comment_ok c) A) in F. exists u, r. split; [|auto].
    split; [apply codes_nonempty, N|]. split; [exact F|]. split; [reflexivity|exact L]. }
  destruct (comment_text false s) as [[t r]|] eqn:E; cbn [option_map snd].
  - apply comment_text_iff in E. assert (E' := E). destruct E' as (N & F & Es & L).
    apply (first_same _ (last_code p (codes t), codes r)).
    + intros y Y. destruct (Sound y Y) as (t' & r' & H & ->). apply comment_text_iff in E, H. rewrite E in H. injection H as _ ->. reflexivity.
    + unfold comment_regex. fold comment_set. apply then_intro with (last_code p (codes t), codes r).
      * apply plus_in. exists (codes t). cbn [fst snd]. split; [apply codes_nonempty, N|]. split; [rewrite Es; apply codes_app|]. split; [|reflexivity].
        rewrite Es, ascii_app in A. apply andb_true_iff in A as (A & _). rewrite (classes comment_set comment_char t (fun c _ => comment_ok c) A). exact F.
      * apply line_in. split; [reflexivity|]. apply line_ok, L.
  - apply first_none. intros y Y. destruct (Sound y Y) as (t' & r' & H & _). apply comment_text_iff in H. congruence.
Qed.

(** ** Names and units: the first choice succeeds *)
Lemma hd_flat : forall (f : state -> list state) l y, hd_error l = Some y -> f y <> [] -> hd_error (flat_map f l) = hd_error (f y).
Proof. intros f [|x l] y E N; [discriminate|]. injection E as ->. simpl. destruct (f y); [congruence|reflexivity]. Qed.
Lemma repeat_nonempty : forall step n x, repeat_match step n x <> [].
Proof. intros step [|n] x; simpl; [discriminate|]. intros H. apply app_eq_nil in H as (_ & H). discriminate. Qed.
Lemma repeat_step : forall step n x y, hd_error (step x) = Some y -> (List.length (snd y) < List.length (snd x))%nat ->
  hd_error (repeat_match step (S n) x) = hd_error (repeat_match step n y).
Proof.
  intros step n x y H L. cbn [repeat_match]. destruct (step x) as [|z l]; [discriminate|]. injection H as ->. simpl filter.
  destruct (Nat.ltb_spec (List.length (snd y)) (List.length (snd x))); [|lia]. simpl. assert (N := repeat_nonempty step n y).
  destruct (repeat_match step n y); [congruence|reflexivity].
Qed.
Lemma repeat_stop : forall step n x, step x = [] -> hd_error (repeat_match step n x) = Some x.
Proof. intros step [|n] x H; cbn [repeat_match]; [reflexivity|]. rewrite H. reflexivity. Qed.
Lemma star_first : forall f g s p n, (forall c, ascii_char c = true -> f (N_of_ascii c) = g c) -> ascii_text s = true -> (String.length s <= n)%nat ->
  exists q, hd_error (repeat_match (matches (Class f)) n (p, codes s)) = Some (q, codes (snd (span g s))).
Proof.
  intros f g s. induction s as [|c s IH]; intros p n E A L.
  - exists p. apply repeat_stop. reflexivity.
  - simpl in A. apply andb_true_iff in A as (A1 & A2). rewrite codes_cons. cbn [span]. destruct (g c) eqn:G.
    + destruct n as [|n]; [simpl in L; lia|]. destruct (IH (Some (N_of_ascii c)) n E A2 ltac:(simpl in L; lia)) as (q & H). exists q.
      rewrite (repeat_step _ n _ (Some (N_of_ascii c), codes s)).
      * rewrite H. destruct (span g s). reflexivity.
      * cbn [matches snd]. rewrite (E c A1), G. reflexivity.
      * simpl. lia.
    + exists p. apply repeat_stop. cbn [matches snd]. rewrite codes_cons, (E c A1), G. reflexivity.
Qed.
Lemma span_length : forall g s, (String.length (snd (span g s)) <= String.length s)%nat.
Proof. intros g s. induction s as [|c s IH]; [simpl; lia|]. cbn [span]. destruct (g c); [|simpl; lia]. destruct (span g s). simpl in *. lia. Qed.
Lemma span_ascii : forall g s, ascii_text s = true -> ascii_text (snd (span g s)) = true.
Proof.
  intros g s. induction s as [|c s IH]; intros A; [reflexivity|]. cbn [span]. destruct (g c); [|exact A].
  simpl in A. apply andb_true_iff in A as (_ & A). specialize (IH A). destruct (span g s). exact IH.
Qed.
Lemma span_stops : forall g s, starts_with g (snd (span g s)) = false.
Proof. intros g s. induction s as [|c s IH]; [reflexivity|]. cbn [span]. destruct (g c) eqn:G; [|exact G]. destruct (span g s). exact IH. Qed.
Lemma plus_first : forall f g s p, (forall c, ascii_char c = true -> f (N_of_ascii c) = g c) -> ascii_text s = true ->
  if starts_with g s then exists q, hd_error (matches (Plus (Class f)) (p, codes s)) = Some (q, codes (snd (span g s)))
  else matches (Plus (Class f)) (p, codes s) = [].
Proof.
  intros f g [|c s] p E A; [reflexivity|]. simpl in A. apply andb_true_iff in A as (A1 & A2). cbn [starts_with]. unfold Plus.
  rewrite codes_cons. cbn [matches snd]. rewrite (E c A1). destruct (g c) eqn:G; [|reflexivity].
  destruct (star_first f g s (Some (N_of_ascii c)) (String.length s) E A2 ltac:(lia)) as (q & H). exists q.
  cbn [flat_map]. rewrite app_nil_r. cbn [snd]. rewrite codes_length. cbn [span]. rewrite G. destruct (span g s). exact H.
Qed.
Definition unit_set (c : N) : bool := char "%" c || AZ c || az c || digit c || char "/" c || char "^" c.
Lemma unit_ok : forall c, ascii_char c = true -> unit_set (N_of_ascii c) = unit_class c.
Proof. intros c A. unfold unit_set, unit_class. rewrite (digit_ok c A), !char_ok. reflexivity. Qed.
Theorem unit_regex_ok : forall p s, ascii_text s = true ->
  match_here (unit_regex digit) p (codes s) = option_map (fun x => codes (snd x)) (unit_text false s).
Proof.
  intros p s A. unfold match_here, unit_regex. fold unit_set. assert (H := plus_first unit_set unit_class s p unit_ok A). unfold unit_text, token.
  destruct s as [|c s]; [rewrite H; reflexivity|]. cbn [starts_with] in H. cbn [span] in *. destruct (unit_class c).
  - destruct H as (q & ->). destruct (span unit_class s). reflexivity.
  - rewrite H. reflexivity.
Qed.

Lemma name_ok : forall c, ascii_char c = true -> name_class digit (N_of_ascii c) = name_char c.
Proof. intros c A. unfold name_class. rewrite (digit_ok c A). reflexivity. Qed.
Definition group_regex : regex := Then (Class (char "-")) (Plus (Class (name_class digit))).
Lemma group_first : forall s p, ascii_text s = true ->
  match s with
  | String c r => if Ascii.eqb c "-" && starts_with name_char r
                  then exists q, hd_error (matches group_regex (p, codes s)) = Some (q, codes (snd (span name_char r)))
                  else matches group_regex (p, codes s) = []
  | "" => matches group_regex (p, codes s) = []
  end.
Proof.
  intros [|c r] p A; [reflexivity|]. simpl in A. apply andb_true_iff in A as (_ & A). unfold group_regex.
  change (matches (Then ?a ?b) ?x) with (flat_map (matches b) (matches a x)). rewrite codes_cons.
  change (matches (Class (char "-")) (p, N_of_ascii c :: codes r)) with (if char "-" (N_of_ascii c) then [(Some (N_of_ascii c), codes r)] else []).
  rewrite char_ok. destruct (Ascii.eqb c "-"); [|reflexivity]. cbn [flat_map andb]. rewrite app_nil_r.
  assert (H := plus_first (name_class digit) name_char r (Some (N_of_ascii c)) name_ok A). exact H.
Qed.
Lemma rest_span : forall s, snd (name_rest s) = snd (name_rest (snd (span name_char s))).
Proof.
  induction s as [|c s IH]; [reflexivity|]. cbn [span]. destruct (name_char c) eqn:N.
  - rewrite name_rest_eq, N. destruct (span name_char s) as [a b]. destruct (name_rest s) as [a' b']. exact IH.
  - reflexivity.
Qed.
Lemma groups_first : forall n s p, (String.length s <= n)%nat -> ascii_text s = true -> starts_with name_char s = false ->
  exists q, hd_error (repeat_match (matches group_regex) n (p, codes s)) = Some (q, codes (snd (name_rest s))).
Proof.
  induction n as [|n IH]; intros s p L A N.
  - destruct s; [|simpl in L; lia]. exists p. reflexivity.
  - assert (G := group_first s p A). destruct s as [|c r]; [exists p; apply repeat_stop, G|]. cbn [starts_with] in N. rewrite name_rest_eq, N.
    destruct (Ascii.eqb c "-" && starts_with name_char r).
    + destruct G as (q & G). assert (SL := span_length name_char r). simpl in L, A. apply andb_true_iff in A as (_ & A).
      destruct (IH (snd (span name_char r)) q ltac:(lia) (span_ascii _ _ A) (span_stops _ _)) as (q' & H). exists q'.
      rewrite (repeat_step _ n _ _ G); [|cbn [snd]; rewrite !codes_length; simpl; lia]. rewrite H, <- rest_span. destruct (name_rest r). reflexivity.
    + exists p. apply repeat_stop, G.
Qed.
Theorem name_regex_ok : forall f g p s, (forall c, f (N_of_ascii c) = g c) -> ascii_text s = true ->
  match_here (name_regex digit f) p (codes s) = option_map (fun x => codes (snd x)) (name_with g false s).
Proof.
  intros f g p s F A. unfold match_here, name_regex, name_with, token.
  change (matches (Then ?a ?b) ?x) with (flat_map (matches b) (matches a x)). destruct s as [|c s]; [reflexivity|].
  simpl in A. apply andb_true_iff in A as (_ & A). rewrite codes_cons.
  change (matches (Class f) (p, N_of_ascii c :: codes s)) with (if f (N_of_ascii c) then [(Some (N_of_ascii c), codes s)] else []).
  rewrite F. destruct (g c); [|reflexivity]. cbn [flat_map]. rewrite app_nil_r.
  change (matches (Then ?a ?b) ?x) with (flat_map (matches b) (matches a x)).
  destruct (star_first (name_class digit) name_char s (Some (N_of_ascii c)) (String.length s) name_ok A ltac:(lia)) as (q & H).
  destruct (groups_first (String.length (snd (span name_char s))) (snd (span name_char s)) q ltac:(lia) (span_ascii _ _ A) (span_stops _ _)) as (q' & H').
  rewrite (hd_flat _ _ (q, codes (snd (span name_char s)))).
  - change (matches (Star ?a) ?x) with (repeat_match (matches a) (List.length (snd x)) x). cbn [snd]. rewrite codes_length. fold group_regex. rewrite H', <- rest_span.
    destruct (name_rest s). reflexivity.
  - change (matches (Star ?a) ?x) with (repeat_match (matches a) (List.length (snd x)) x). cbn [snd]. rewrite codes_length. exact H.
  - apply repeat_nonempty.
Qed.
End Standard.

(** ** Which characters are matched *)
Fixpoint class_of (r : regex) (c : N) : bool :=
  match r with
  | Class f => f c
  | Then a b | Or a b => class_of a c || class_of b c
  | Star a | Maybe a => class_of a c
  | _ => false
  end.
Lemma forallb_imp : forall (f g : N -> bool) l, (forall c, f c = true -> g c = true) -> forallb f l = true -> forallb g l = true.
Proof. intros f g l H. rewrite !forallb_forall. auto. Qed.
Lemma consumed : forall r x y, In y (matches r x) -> exists t, snd x = (t ++ snd y)%list /\ forallb (class_of r) t = true.
Proof.
  induction r as [f|a IHa b IHb|a IHa b IHb|a IHa|a IHa| |w|f|f]; intros x y H.
  - apply class_in in H as (c & E & F & _). exists [c]. split; [exact E|]. simpl. rewrite F. reflexivity.
  - apply then_in in H as (z & H1 & H2). apply IHa in H1 as (t & E & F). apply IHb in H2 as (u & E' & F'). exists (t ++ u)%list.
    rewrite E, E', app_assoc. split; [reflexivity|]. rewrite forallb_app. apply andb_true_iff.
    split; [revert F|revert F']; apply forallb_imp; intros c C; cbn [class_of]; rewrite C, ?orb_true_r; reflexivity.
  - apply or_in in H as [H|H]; [apply IHa in H as (t & E & F)|apply IHb in H as (t & E & F)]; exists t; (split; [exact E|]);
      revert F; apply forallb_imp; intros c C; cbn [class_of]; rewrite C, ?orb_true_r; reflexivity.
  - cbn [matches class_of] in *. remember (List.length (snd x)) as n0 eqn:Q. clear Q. revert x H. induction n0 as [|n IHn]; intros x H; cbn [repeat_match] in H.
    + destruct H as [->|[]]. exists []. auto.
    + apply in_app_iff in H as [H|[->|[]]]; [|exists []; auto]. apply in_flat_map in H as (z & Z & H). apply filter_In in Z as (Z & _).
      apply IHa in Z as (t & E & F). apply IHn in H as (u & E' & F'). exists (t ++ u)%list. rewrite E, E', app_assoc. split; [reflexivity|].
      rewrite forallb_app. apply andb_true_iff. split; assumption.
  - apply maybe_in in H as [H| ->]; [apply IHa, H|exists []; auto].
  - apply line_in in H as (-> & _). exists []. auto.
  - apply edge_in in H as (-> & _). exists []. auto.
  - apply behind_in in H as (-> & _). exists []. auto.
  - apply ahead_in in H as (-> & _). exists []. auto.
Qed.
Lemma name_chars : forall digit f p s rest, match_here (name_regex digit f) p s = Some rest ->
  exists t, s = (t ++ rest)%list /\ forall c, In c t -> f c = true \/ az c = true \/ digit c = true \/ c = 45%N.
Proof.
  intros digit f p s rest H. unfold match_here in H. destruct (hd_error _) as [y|] eqn:E; [|discriminate]. injection H as <-.
  assert (I : In y (matches (name_regex digit f) (p, s))) by (destruct (matches _ _); [discriminate|injection E as ->; left; reflexivity]).
  apply consumed in I as (t & E' & F). exists t. split; [exact E'|]. intros c C. rewrite forallb_forall in F. specialize (F c C).
  unfold name_regex, Plus in F. cbn [class_of] in F. unfold name_class in F. rewrite !orb_true_iff in F.
  assert (D : char "-" c = true -> c = 45%N) by (intros X; apply N.eqb_eq in X; exact X). tauto.
Qed.
Lemma foreign_name : forall digit c, digit c = true -> match_here (name_lower_regex digit) None [97%N; c] = Some [].
Proof.
  intros digit c D. unfold match_here, name_lower_regex, name_regex, Plus, name_class. cbn. rewrite D, orb_true_r. cbn. reflexivity.
Qed.
Lemma names_ascii : forall digit f p s rest, f = az \/ f = AZ ->
  (forall c, In c s -> digit c = true -> (48 <= c <= 57)%N) -> match_here (name_regex digit f) p s = Some rest ->
  exists t, s = (t ++ rest)%list /\ forall c, In c t -> (48 <= c <= 57 \/ 65 <= c <= 90 \/ 97 <= c <= 122 \/ c = 45)%N.
Proof.
  intros digit f p s rest F D H. apply name_chars in H as (t & -> & H). exists t. split; [reflexivity|]. intros c C.
  specialize (H c C). specialize (D c (in_or_app _ _ _ (or_introl C))). unfold az, AZ, range in *.
  destruct H as [H|[H|[H| ->]]]; [destruct F as [-> | ->]; cbv beta in H; lia|lia|specialize (D H); lia|lia].
Qed.
Lemma foreign_names : forall digit, digit 1635%N = true ->
  exists t, match_here (name_lower_regex digit) None t = Some [] /\ ~ ascii_name t.
Proof.
  intros digit D. exists [97%N; 1635%N]. split; [apply foreign_name, D|]. intros H. specialize (H 1635%N (or_intror (or_introl eq_refl))). lia.
Qed.
