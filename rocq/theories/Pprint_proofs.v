(** * Proofs: printed outlines *)
From Coq Require Import ZifyBool ZifyN ZifyNat.
From Coq Require Import List String ZArith Lia Bool Ascii.
Import ListNotations.
From Verif Require Import Base PyNum PyStr PyFloat Ast Grammar GenCosmos Pprint.
From Verif Require Import Spec_Num Spec_Grammar Spec_Syntax Spec_Floats Spec_Outline.
From Verif Require Import Str_proofs Text_proofs Lib_proofs Name_proofs Lex_proofs Token_proofs Float_proofs Floats_proofs Init_proofs Header_proofs.
Open Scope string_scope.

(** ** Characters *)
Definition plain (c : ascii) : bool :=
  negb (Ascii.eqb c " ") && negb (Ascii.eqb c "(") && negb (Ascii.eqb c ")") && negb (Ascii.eqb c LF).
Definition inline (c : ascii) : bool := negb (Ascii.eqb c LF).

Lemma plain_code : forall c, (45 <= N_of_ascii c)%N -> plain c = true.
Proof.
  intros c H. unfold plain. rewrite !ascii_eqb_N. change (N_of_ascii " ") with 32%N. change (N_of_ascii "(") with 40%N.
  change (N_of_ascii ")") with 41%N. change (N_of_ascii LF) with 10%N. lia.
Qed.
Lemma anychar_plain : forall c, anychar c = true -> plain c = true.
Proof.
  intros c H. apply plain_code. unfold anychar in H. apply orb_prop in H as [H|H].
  - apply nchar_codes in H. lia.
  - apply upper_codes in H. lia.
Qed.
Lemma name_plain : forall s, is_name s = true -> all_chars plain s = true.
Proof. intros s H. apply name_anychar in H. revert H. apply all_chars_impl, anychar_plain. Qed.
Lemma capital_plain : forall s, is_name_capital s = true -> all_chars plain s = true.
Proof. intros s H. apply name_plain, capital_name, H. Qed.
Lemma lower_plain : forall s, is_name_lower s = true -> all_chars plain s = true.
Proof. intros s H. apply name_plain, lower_name, H. Qed.
Lemma number_plain : forall c, number_char c = true -> plain c = true.
Proof.
  intros c H. unfold number_char, is_digit in H. unfold plain. rewrite !ascii_eqb_N in *.
  change (N_of_ascii " ") with 32%N. change (N_of_ascii "(") with 40%N.
  change (N_of_ascii ")") with 41%N. change (N_of_ascii LF) with 10%N.
  change (N_of_ascii "-") with 45%N in H. change (N_of_ascii "+") with 43%N in H. change (N_of_ascii ".") with 46%N in H.
  change (N_of_ascii "e") with 101%N in H. change (N_of_ascii "E") with 69%N in H. lia.
Qed.
Lemma plain_inline : forall s, all_chars plain s = true -> all_chars inline s = true.
Proof.
  intros s. apply all_chars_impl. intros c H. unfold plain in H. apply andb_prop in H. apply H.
Qed.

Lemma int_plain : forall z, all_chars plain (str_of_Z z) = true.
Proof.
  intros z. assert (P : forall z, (0 <= z)%Z -> all_chars plain (str_of_Z z) = true).
  { intros n N. assert (D := str_of_Z_digits n N). revert D. apply all_chars_impl. intros c H. apply number_plain.
    unfold number_char. rewrite H. reflexivity. }
  destruct (Z.ltb_spec z 0) as [N|N]; [|exact (P z N)]. rewrite (neg_str z N). cbn [append all_chars].
  rewrite P by lia. reflexivity.
Qed.
Lemma int_chars : forall z, all_chars int_char (str_of_Z z) = true.
Proof.
  intros z. assert (P : forall z, (0 <= z)%Z -> all_chars int_char (str_of_Z z) = true).
  { intros n N. assert (D := str_of_Z_digits n N). revert D. apply all_chars_impl. intros c H.
    unfold int_char. rewrite H. reflexivity. }
  destruct (Z.ltb_spec z 0) as [N|N]; [|exact (P z N)]. rewrite (neg_str z N). cbn [append all_chars].
  rewrite P by lia. reflexivity.
Qed.
Lemma int_inj : forall a b, str_of_Z a = str_of_Z b -> a = b.
Proof. intros a b H. assert (A := read_str_of_Z a). rewrite H, read_str_of_Z in A. congruence. Qed.

(** ** Floats *)
Lemma finite_chars : forall f, float_ok f = true -> finite (fval f) ->
  all_chars number_char (frepr f) = true /\ all_chars int_char (frepr f) = false.
Proof. intros f H F. destruct (printed_rounded f H F) as (neg & q & T & _). exact (float_text_chars _ _ _ T). Qed.
Lemma infinite_text : forall f, float_ok f = true -> ~ finite (fval f) -> frepr f = "inf" \/ frepr f = "-inf".
Proof.
  intros f H F. rewrite (float_ok_repr f H). destruct (fval f) as [s m e|[]]; [elim F; exact I|right|left]; reflexivity.
Qed.
Lemma finite_dec : forall d, finite d \/ ~ finite d.
Proof. intros [s m e|s]; [left; exact I|right; intros []]. Qed.
Lemma float_plain : forall f, float_ok f = true -> all_chars plain (frepr f) = true.
Proof.
  intros f H. destruct (finite_dec (fval f)) as [F|F].
  - destruct (finite_chars f H F) as [C _]. revert C. apply all_chars_impl, number_plain.
  - destruct (infinite_text f H F) as [-> | ->]; reflexivity.
Qed.
Lemma float_no_int : forall f, float_ok f = true -> all_chars int_char (frepr f) = false.
Proof.
  intros f H. destruct (finite_dec (fval f)) as [F|F]; [apply finite_chars; assumption|].
  destruct (infinite_text f H F) as [-> | ->]; reflexivity.
Qed.
Lemma float_inj : forall f g, float_ok f = true -> float_ok g = true -> frepr f = frepr g -> f = g.
Proof.
  intros f g Hf Hg E. destruct (finite_dec (fval f)) as [F|F], (finite_dec (fval g)) as [G|G].
  - assert (A := printed_ok f "" Hf F I). assert (B := printed_ok g "" Hg G I). rewrite E in A.
    assert (A' := STRICTFLOAT_base false _ _ _ A). assert (B' := STRICTFLOAT_base false _ _ _ B). congruence.
  - destruct (finite_chars f Hf F) as [C _]. rewrite E in C. destruct (infinite_text g Hg G) as [X|X]; rewrite X in C; discriminate.
  - destruct (finite_chars g Hg G) as [C _]. rewrite <- E in C. destruct (infinite_text f Hf F) as [X|X]; rewrite X in C; discriminate.
  - assert (A := float_ok_repr f Hf). assert (B := float_ok_repr g Hg).
    destruct f as [d s], g as [d' s']. cbn [fval frepr] in *. subst s'. f_equal.
    destruct d as [? ? ?|a], d' as [? ? ?|b]; try (now elim F); try (now elim G). rewrite A in B. destruct a, b; (reflexivity || discriminate B).
Qed.

Definition num_ok (n : num) : Prop := match n with NInt _ => True | NFloat f => float_ok f = true end.
Lemma num_plain : forall n, num_ok n -> all_chars plain (str_num n) = true.
Proof. intros [z|f] H; [apply int_plain|apply float_plain, H]. Qed.
Lemma num_inj : forall a b, num_ok a -> num_ok b -> str_num a = str_num b -> a = b.
Proof.
  intros [z|f] [z'|g] A B E; cbn [str_num num_ok] in *.
  - f_equal. apply int_inj, E.
  - assert (X := float_no_int g B). rewrite <- E, int_chars in X. discriminate.
  - assert (X := float_no_int f A). rewrite E, int_chars in X. discriminate.
  - f_equal. apply float_inj; assumption.
Qed.
Lemma num_none : forall n, num_ok n -> str_num n <> "None".
Proof.
  intros [z|f] H E; cbn [str_num num_ok] in *.
  - assert (X := int_chars z). rewrite E in X. discriminate.
  - destruct (finite_dec (fval f)) as [F|F].
    + destruct (finite_chars f H F) as [X _]. rewrite E in X. discriminate.
    + destruct (infinite_text f H F) as [X|X]; congruence.
Qed.
Definition bound_ok (b : option num) : Prop := match b with Some n => num_ok n | None => True end.
Lemma bound_plain : forall b, bound_ok b -> all_chars plain (str_bound b) = true.
Proof. intros [n|] H; [apply num_plain, H|reflexivity]. Qed.
Lemma bound_inj : forall a b, bound_ok a -> bound_ok b -> str_bound a = str_bound b -> a = b.
Proof.
  intros [a|] [b|] A B E; cbn [str_bound] in E; [f_equal; apply num_inj; assumption| | |reflexivity].
  - elim (num_none a A E).
  - elim (num_none b B). congruence.
Qed.

(** ** Words *)
Lemma words : forall a a' c c' r r', all_chars plain a = true -> all_chars plain a' = true -> plain c = false -> plain c' = false ->
  a ++ String c r = a' ++ String c' r' -> a = a' /\ String c r = String c' r'.
Proof.
  induction a as [|x a IH]; intros [|x' a'] c c' r r' A A' C C' E; cbn [append all_chars] in *.
  - auto.
  - injection E as <- _. apply andb_prop in A' as [A' _]. congruence.
  - injection E as -> _. apply andb_prop in A as [A _]. congruence.
  - apply andb_prop in A as [_ A]. apply andb_prop in A' as [_ A']. injection E as <- E.
    destruct (IH a' c c' r r' A A' C C' E) as [-> E']. auto.
Qed.

(** ** Types *)
Lemma type_bounds : forall t, type_ok t = true -> bound_ok (type_begin t) /\ bound_ok (type_end t).
Proof.
  intros t H. destruct t as [[[b e]|]|[[b e]|]| | | | |]; try (split; exact I). cbn [type_ok] in H. apply andb_prop in H. exact H.
Qed.
Lemma type_name_plain : forall t, type_ok t = true -> all_chars plain (type_name t) = true.
Proof.
  induction t as [r|r| | |k n|n t IH|n]; intros H; try reflexivity; [destruct k; reflexivity|exact (IH H)|apply capital_plain, H].
Qed.
Lemma type_name_names : forall t, type_name t = names_type t.
Proof. induction t; reflexivity. Qed.
Lemma bounds_range : forall t, range_of t = match type_begin t, type_end t with Some b, Some e => Some (b, e) | _, _ => None end.
Proof. intros t. destruct t as [[[b e]|]|[[b e]|]| | | | |]; reflexivity. Qed.
Lemma range_bounds : forall t, type_begin t = option_map fst (range_of t) /\ type_end t = option_map snd (range_of t).
Proof. intros t. destruct t as [[[b e]|]|[[b e]|]| | | | |]; split; reflexivity. Qed.

Lemma str_type_inj : forall t t' r r', type_ok t = true -> type_ok t' = true ->
  str_type t ++ r = str_type t' ++ r' -> shown t = shown t' /\ r = r'.
Proof.
  intros t t' r r' H H' E. unfold str_type in E. rewrite <- !string_app_assoc in E.
  destruct (type_bounds t H) as [B N], (type_bounds t' H') as [B' N'].
  cbn [append] in E.
  apply words in E as [E1 E]; try (apply type_name_plain; assumption); try reflexivity. injection E as E.
  apply words in E as [E2 E]; try (apply bound_plain; assumption); try reflexivity. injection E as E.
  apply words in E as [E3 E]; try (apply bound_plain; assumption); try reflexivity. injection E as E.
  split; [|exact E]. unfold shown. rewrite <- !type_name_names, !bounds_range, E1.
  apply bound_inj in E2; try assumption. apply bound_inj in E3; try assumption. rewrite E2, E3. reflexivity.
Qed.
Lemma shown_type_eq : forall t t', shown t = shown t' ->
  type_name t = type_name t' /\ type_begin t = type_begin t' /\ type_end t = type_end t'.
Proof.
  intros t t' E. unfold shown in E. injection E as E1 E2. rewrite !type_name_names.
  destruct (range_bounds t) as [-> ->], (range_bounds t') as [-> ->]. rewrite E1, E2. auto.
Qed.

(** ** Lines *)
Inductive at_depth : nat -> string -> string -> Prop :=
| at_zero : forall r, at_depth 0 ("├" ++ r) ("├" ++ r)
| at_bar : forall d l s, at_depth d l s -> at_depth (S d) l ("│   " ++ s)
| at_blank : forall d l s, at_depth d l s -> at_depth (S d) l ("    " ++ s).

Lemma at_depth_unique : forall d l s, at_depth d l s -> forall d' l', at_depth d' l' s -> d = d'.
Proof.
  intros d l s H. induction H as [r|d l s H IH|d l s H IH]; intros d' l' H'; inversion H'; subst; try reflexivity;
    try (match goal with E : _ = _ |- _ => cbn in E; discriminate E end).
  - f_equal. eapply IH. eassumption.
  - f_equal. eapply IH. eassumption.
Qed.

Lemma indent_S : forall n, indent (S n) = "│   " ++ repeat_str n "    ".
Proof. intros n. unfold indent. replace (S n - 1)%nat with n by lia. reflexivity. Qed.
Lemma at_indent : forall n r, at_depth n ("├" ++ r) (indent n ++ "├" ++ r).
Proof.
  intros [|n] r; [constructor|]. rewrite indent_S, <- string_app_assoc. apply at_bar.
  induction n as [|n IH]; cbn [repeat_str]; [constructor|]. rewrite <- string_app_assoc. apply at_blank, IH.
Qed.

Definition from (L : nat) (s : string) : Prop := exists d l, at_depth d l s /\ (L <= d)%nat.
Definition level (L : nat) (s : string) : Prop := exists l, at_depth L l s.
Lemma level_not : forall L s, level L s -> ~ from (S L) s.
Proof. intros L s [l H] (d & l' & H' & N). assert (L = d) by (eapply at_depth_unique; eassumption). lia. Qed.
Lemma level_from : forall L s, level L s -> from L s.
Proof. intros L s [l H]. exists L, l. split; [exact H|lia]. Qed.
Lemma from_S : forall L s, from (S L) s -> from L s.
Proof. intros L s (d & l & H & N). exists d, l. split; [exact H|lia]. Qed.

Definition stops (P : string -> Prop) (l : list string) : Prop := match l with [] => True | x :: _ => ~ P x end.
Lemma split_at_stop : forall P t t' r r', Forall P t -> Forall P t' -> stops P r -> stops P r' -> (t ++ r)%list = (t' ++ r')%list -> t = t' /\ r = r'.
Proof.
  intros P t. induction t as [|x t IH]; intros [|x' t'] r r' F F' R R' E; cbn [List.app] in E; subst; cbn [stops] in *.
  - auto.
  - inversion F'; subst. elim (R H1).
  - inversion F; subst. elim (R' H1).
  - inversion F; inversion F'; subst. injection E as <- E. destruct (IH t' r r' H2 H6 R R' E) as [-> ->]. auto.
Qed.

Definition block (L : nat) (b : list string) : Prop := exists h t, b = h :: t /\ level L h /\ Forall (from (S L)) t.
Lemma block_from : forall L b, block L b -> Forall (from L) b.
Proof.
  intros L b (h & t & -> & H & T). constructor; [apply level_from, H|]. revert T. apply Forall_impl. apply from_S.
Qed.
Lemma blocks_stop : forall A (f : A -> list string) L l, (forall x, In x l -> block L (f x)) -> stops (from (S L)) (flat_map f l).
Proof.
  intros A f L [|x l] H; [exact I|]. destruct (H x (or_introl eq_refl)) as (h & t & E & B & _). cbn [flat_map]. rewrite E.
  cbn [List.app stops]. apply level_not, B.
Qed.
Lemma blocks_from : forall A (f : A -> list string) L l, (forall x, In x l -> block L (f x)) -> Forall (from L) (flat_map f l).
Proof.
  intros A f L l H. apply Forall_forall. intros s S. apply in_flat_map in S as (x & X & S).
  assert (B := block_from _ _ (H x X)). rewrite Forall_forall in B. exact (B s S).
Qed.
Lemma blocks_eq : forall A (f : A -> list string) L l l', (forall x, In x l -> block L (f x)) -> (forall x, In x l' -> block L (f x)) ->
  flat_map f l = flat_map f l' -> Forall2 (fun x y => f x = f y) l l'.
Proof.
  intros A f L l. induction l as [|x l IH]; intros [|y l'] H H' E.
  - constructor.
  - destruct (H' y (or_introl eq_refl)) as (h & t & X & _). cbn [flat_map] in E. rewrite X in E. discriminate.
  - destruct (H x (or_introl eq_refl)) as (h & t & X & _). cbn [flat_map] in E. rewrite X in E. discriminate.
  - destruct (H x (or_introl eq_refl)) as (h & t & X & _ & T), (H' y (or_introl eq_refl)) as (h' & t' & X' & _ & T').
    cbn [flat_map] in E. rewrite X, X' in E. cbn [List.app] in E. injection E as <- E.
    apply (split_at_stop (from (S L))) in E; try assumption.
    + destruct E as [<- E]. constructor; [congruence|]. apply IH; auto; intros z Z; [apply H|apply H']; right; exact Z.
    + apply blocks_stop. intros z Z. apply H. right. exact Z.
    + apply blocks_stop. intros z Z. apply H'. right. exact Z.
Qed.

(** ** Clauses *)
Lemma clause_ind : forall P : wcomps -> Prop,
  (forall c l, (forall k w c', In (WI k (VWith w) c') l -> P w) -> P (WC c l)) -> forall w, P w.
Proof.
  intros P H. fix IH 1. intros [c l]. apply H. induction l as [|[k v c'] l IHl]; intros k0 w0 c0 [].
  - destruct v as [z|f|b|w]; try discriminate. assert (w = w0) by congruence. rewrite <- H1. apply IH.
  - eapply IHl. eassumption.
Qed.

Lemma pprint_clause_eq : forall L c l, pprint_clause L (WC c l) = flat_map (pprint_item L) l.
Proof. intros L c l. cbn [pprint_clause]. induction l as [|i l IH]; [reflexivity|]. cbn [flat_map]. rewrite <- IH. reflexivity. Qed.
Lemma clause_ok : forall c l, wcomps_ok (WC c l) = true -> forall i, In i l -> witem_ok i = true.
Proof.
  intros c l H. cbn [wcomps_ok] in H. apply andb_prop in H as [_ H]. induction l as [|i l IH]; intros j []; apply andb_prop in H as [H1 H2].
  - subst. exact H1.
  - auto.
Qed.
Lemma item_level : forall n a, level n (indent n ++ "├─ " ++ a).
Proof. intros n a. exists ("├─ " ++ a). exact (at_indent n ("─ " ++ a)). Qed.
Ltac leveled := match goal with |- level ?n (indent ?n ++ ?x) => eexists; exact (at_indent n _) end.

Lemma clause_from : forall w L, Forall (from L) (pprint_clause L w).
Proof.
  apply (clause_ind (fun w => forall L, Forall (from L) (pprint_clause L w))). intros c l IH L. rewrite pprint_clause_eq.
  apply Forall_forall. intros s S. apply in_flat_map in S as ([k v c'] & X & S). cbn [pprint_item] in S.
  destruct v as [z|f|b|w]; rewrite <- !string_app_assoc in S.
  4: { destruct S as [<-|S]; [apply level_from, item_level|]. specialize (IH _ _ _ X (Datatypes.S L)). rewrite Forall_forall in IH. apply from_S, IH, S. }
  all: destruct S as [<-|[]]; apply level_from, item_level.
Qed.
Lemma item_block : forall L i, block L (pprint_item L i).
Proof.
  intros L [k v c]. cbn [pprint_item]. destruct v as [z|f|b|w]; rewrite <- !string_app_assoc; eexists; eexists; (split; [reflexivity|]);
    (split; [apply item_level|]); try constructor. apply clause_from.
Qed.

Lemma clause_inj : forall w w' L, wcomps_ok w = true -> wcomps_ok w' = true -> pprint_clause L w = pprint_clause L w' -> shown_clause w = shown_clause w'.
Proof.
  apply (clause_ind (fun w => forall w' L, wcomps_ok w = true -> wcomps_ok w' = true -> pprint_clause L w = pprint_clause L w' -> shown_clause w = shown_clause w')).
  intros c l IH [c' l'] L O O' E. rewrite !pprint_clause_eq in E.
  assert (G := clause_ok _ _ O). assert (G' := clause_ok _ _ O').
  apply (blocks_eq _ _ L) in E; try (intros; apply item_block). cbn [shown_clause]. f_equal.
  clear O O'. induction E as [|[k v a] [k' v' a'] l l' X E IHE]; [reflexivity|]. cbn [map]. f_equal.
  - clear IHE. specialize (G _ (or_introl eq_refl)). specialize (G' _ (or_introl eq_refl)).
    assert (IHw : forall w, v = VWith w -> forall w' L, wcomps_ok w = true -> wcomps_ok w' = true -> pprint_clause L w = pprint_clause L w' -> shown_clause w = shown_clause w').
    { intros w ->. eapply IH. left. reflexivity. }
    clear IH. cbn [witem_ok] in G, G'. apply andb_prop in G as [G _]. apply andb_prop in G' as [G' _].
    apply andb_prop in G as [K V]. apply andb_prop in G' as [K' V'].
    cbn [pprint_item] in X.
    assert (IN : forall r r', indent L ++ "├─ ComponentsItem: key=" ++ k ++ " value=" ++ r = indent L ++ "├─ ComponentsItem: key=" ++ k' ++ " value=" ++ r' -> k = k' /\ r = r').
    { intros r r' H. apply string_app_inv_l, string_app_inv_l in H. change (" value=" ++ r) with (String " " ("value=" ++ r)) in H.
      change (" value=" ++ r') with (String " " ("value=" ++ r')) in H.
      apply words in H as [-> H]; try (apply lower_plain; assumption); try reflexivity. injection H as H. auto. }
    destruct v as [z|f|b|w], v' as [z'|f'|b'|w']; rewrite <- !string_app_assoc in X; injection X as X; try (apply IN in X as [-> X]; discriminate X).
    + apply IN in X as [-> X]. injection X as X. apply int_inj in X. subst. reflexivity.
    + apply IN in X as [-> X]. injection X as X. apply float_inj in X; try assumption. subst. reflexivity.
    + apply IN in X as [-> X]. destruct b, b'; (reflexivity || discriminate X).
    + apply IN in X as [-> _]. cbn [shown_component]. f_equal. eapply IHw; try eassumption. reflexivity.
  - apply IHE.
    + intros k0 w0 c0 I0. eapply IH. right. exact I0.
    + intros i I0. apply G. right. exact I0.
    + intros i I0. apply G'. right. exact I0.
Qed.

Lemma clause_eq : forall w w' L, shown_clause w = shown_clause w' -> pprint_clause L w = pprint_clause L w'.
Proof.
  apply (clause_ind (fun w => forall w' L, shown_clause w = shown_clause w' -> pprint_clause L w = pprint_clause L w')).
  intros c l IH [c' l'] L E. rewrite !pprint_clause_eq. cbn [shown_clause] in E. injection E as E.
  revert l' E. induction l as [|[k v a] l IHl]; intros [|[k' v' a'] l'] E; try discriminate E; [reflexivity|]. cbn [map] in E.
  assert (E1 : shown_component (WI k v a) = shown_component (WI k' v' a')) by congruence.
  assert (E2 : map shown_component l = map shown_component l') by congruence. clear E.
  cbn [flat_map]. f_equal.
  - assert (X : forall w w', v = VWith w -> v' = VWith w' -> shown_clause w = shown_clause w' -> pprint_clause (S L) w = pprint_clause (S L) w').
    { intros w w' -> -> H. eapply IH; [left; reflexivity|exact H]. }
    destruct v as [z|f|b|w], v' as [z'|f'|b'|w']; cbn [shown_component] in E1;
      try (destruct w as [? ?]; discriminate E1); try (destruct w' as [? ?]; discriminate E1); try discriminate E1.
    + injection E1 as -> ->. reflexivity.
    + injection E1 as -> ->. reflexivity.
    + injection E1 as -> ->. reflexivity.
    + injection E1 as -> E1. cbn [pprint_item]. f_equal. apply X; auto.
  - apply IHl; [|exact E2]. intros k0 w0 c0 I0. eapply IH. right. exact I0.
Qed.

(** ** Members *)
Lemma member_parts : forall m, member_ok m = true ->
  is_name_lower (m_key m) = true /\ type_ok (m_type m) = true /\ forall w, m_with m = Some w -> wcomps_ok w = true.
Proof.
  intros m H. unfold member_ok in H. apply andb_prop in H as [H W]. apply andb_prop in H as [H _]. apply andb_prop in H as [K T].
  split; [exact K|]. split; [exact T|]. intros w E. rewrite E in W. exact W.
Qed.
Definition shown_member (m : member) : string * shown_type * option shown_value :=
  (m_key m, shown (m_type m), option_map shown_clause (m_with m)).
Lemma member_block : forall L m, block L (pprint_member L m).
Proof.
  intros L m. unfold pprint_member. destruct (m_with m) as [w|]; rewrite <- !string_app_assoc; eexists; eexists; (split; [reflexivity|]);
    (split; [apply item_level|]); [apply clause_from|constructor].
Qed.
Lemma member_inj : forall L m m', member_ok m = true -> member_ok m' = true -> pprint_member L m = pprint_member L m' -> shown_member m = shown_member m'.
Proof.
  intros L m m' O O' E. destruct (member_parts m O) as (K & T & W), (member_parts m' O') as (K' & T' & W').
  unfold pprint_member in E. unfold shown_member.
  assert (IN : forall r r', indent L ++ "├─ KeyTypePair key=" ++ m_key m ++ " type=" ++ str_type (m_type m) ++ r
    = indent L ++ "├─ KeyTypePair key=" ++ m_key m' ++ " type=" ++ str_type (m_type m') ++ r' -> m_key m = m_key m' /\ shown (m_type m) = shown (m_type m') /\ r = r').
  { intros r r' H. apply string_app_inv_l, string_app_inv_l in H.
    change (" type=" ++ str_type (m_type m) ++ r) with (String " " ("type=" ++ str_type (m_type m) ++ r)) in H.
    change (" type=" ++ str_type (m_type m') ++ r') with (String " " ("type=" ++ str_type (m_type m') ++ r')) in H.
    apply words in H as [-> H]; try (apply lower_plain; assumption); try reflexivity. injection H as H.
    apply str_type_inj in H; try assumption. tauto. }
  destruct (m_with m) as [w|], (m_with m') as [w'|]; rewrite <- !string_app_assoc in E.
  - assert (E1 := f_equal (fun l => match l with x :: _ => x | [] => "" end) E). assert (E2 := f_equal (@tl string) E).
    cbn beta iota in E1. cbn [tl] in E2. apply IN in E1 as (-> & -> & _). cbn [option_map].
    rewrite (clause_inj w w' (S L)); auto.
  - assert (E1 := f_equal (fun l => match l with x :: _ => x | [] => "" end) E). cbn beta iota in E1. apply IN in E1 as (_ & _ & E1). discriminate E1.
  - assert (E1 := f_equal (fun l => match l with x :: _ => x | [] => "" end) E). cbn beta iota in E1. apply IN in E1 as (_ & _ & E1). discriminate E1.
  - assert (E1 := f_equal (fun l => match l with x :: _ => x | [] => "" end) E). cbn beta iota in E1. apply IN in E1 as (-> & -> & _). reflexivity.
Qed.
Lemma member_eq : forall L m m', shown_member m = shown_member m' -> pprint_member L m = pprint_member L m'.
Proof.
  intros L m m' E. unfold shown_member in E. unfold pprint_member, str_type.
  assert (K : m_key m = m_key m') by congruence. assert (T : shown (m_type m) = shown (m_type m')) by congruence.
  assert (W : option_map shown_clause (m_with m) = option_map shown_clause (m_with m')) by congruence.
  destruct (shown_type_eq _ _ T) as (-> & -> & ->). rewrite K.
  destruct (m_with m) as [w|], (m_with m') as [w'|]; try discriminate W; [|reflexivity].
  f_equal. apply clause_eq. cbn [option_map] in W. congruence.
Qed.

(** ** Definitions *)
Lemma definition_block : forall L d, block L (pprint_definition L d).
Proof.
  intros L [n c l|n c l|n c l|n t c]; cbn [pprint_definition]; eexists; eexists; (split; [reflexivity|]); (split; [apply item_level|]).
  - apply blocks_from. intros m _. apply member_block.
  - constructor.
  - constructor.
  - constructor; [|constructor]. apply level_from, item_level.
Qed.
Lemma map_eq : forall A B (f : A -> B) (R : A -> A -> Prop) l l', (forall x y, In x l -> In y l' -> R x y -> f x = f y) -> Forall2 R l l' -> map f l = map f l'.
Proof.
  intros A B f R l l' H F. induction F as [|x y l l' X F IH]; [reflexivity|]. cbn [map]. f_equal; [apply H; [left|left|]; auto|].
  apply IH. intros a b Ia Ib. apply H; right; assumption.
Qed.
Lemma map_flat : forall A B C (f : A -> list B) (g : A -> C) l l', (forall x y, g x = g y -> f x = f y) -> map g l = map g l' -> flat_map f l = flat_map f l'.
Proof.
  intros A B C f g l. induction l as [|x l IH]; intros [|y l'] H E; try discriminate E; [reflexivity|]. cbn [map] in E. injection E as E1 E2.
  cbn [flat_map]. rewrite (H x y E1), (IH l' H E2). reflexivity.
Qed.
Definition head (l : list string) : string := match l with x :: _ => x | [] => "" end.

Lemma definition_inj : forall L d d', definition_ok d = true -> definition_ok d' = true -> pprint_definition L d = pprint_definition L d' ->
  shown_definition_of d = shown_definition_of d'.
Proof.
  intros L d d' O O' E. assert (E1 := f_equal head E). assert (E2 := f_equal (@tl string) E).
  destruct d as [n c l|n c l|n c l|n t c], d' as [n' c' l'|n' c' l'|n' c' l'|n' t' c']; cbn [pprint_definition head tl] in E1, E2;
    apply string_app_inv_l in E1; try discriminate E1; cbn [definition_ok] in O, O'.
  1: { apply string_app_inv_l in E1. subst n'. cbn [shown_definition_of]. f_equal.
    apply andb_prop in O as [_ O]. apply andb_prop in O' as [_ O']. rewrite forallb_forall in O, O'.
    apply (blocks_eq _ _ (S L)) in E2; try (intros; apply member_block). revert E2. apply map_eq.
    intros x y X Y. apply member_inj; auto. }
  5: { apply string_app_inv_l in E1. apply andb_prop in O as [O _]. apply andb_prop in O' as [O' _].
    apply andb_prop in O as [N T]. apply andb_prop in O' as [N' T'].
    change (" type=" ++ str_type t) with (String " " ("type=" ++ str_type t)) in E1.
    change (" type=" ++ str_type t') with (String " " ("type=" ++ str_type t')) in E1.
    apply words in E1 as [-> E1]; try (apply capital_plain; assumption); try reflexivity. injection E1 as E1.
    cbn [shown_definition_of]. f_equal. apply (str_type_inj t t' "" ""); auto. rewrite !string_app_nil. exact E1. }
  all: apply string_app_inv_l in E1; subst n'; reflexivity.
Qed.
Lemma definition_eq : forall L d d', shown_definition_of d = shown_definition_of d' -> pprint_definition L d = pprint_definition L d'.
Proof.
  intros L d d' E. destruct d as [n c l|n c l|n c l|n t c], d' as [n' c' l'|n' c' l'|n' c' l'|n' t' c']; try discriminate E; cbn [shown_definition_of] in E; cbn [pprint_definition].
  1: { injection E as -> E. f_equal. revert E. apply map_flat. intros x y. apply member_eq. }
  5: { assert (N : n = n') by congruence. assert (T : shown t = shown t') by congruence. unfold str_type, pprint_type.
    destruct (shown_type_eq _ _ T) as (-> & -> & ->). rewrite N. reflexivity. }
  all: injection E as ->; reflexivity.
Qed.

(** ** Imports *)
Definition shown_import (i : import_item) : string * list string := (imp_module i, imp_names i).
Lemma import_block : forall L i, block L (pprint_import L i).
Proof.
  intros L i. unfold pprint_import. eexists; eexists; (split; [reflexivity|]); (split; [apply item_level|]).
  apply Forall_forall. intros s S. apply in_map_iff in S as (n & <- & _).
  exists (S L), ("├── " ++ n). split; [|lia]. destruct L as [|L].
  - exact (at_bar 0 _ _ (at_zero _)).
  - rewrite indent_S, <- string_app_assoc. apply at_bar. induction L as [|L IH]; cbn [repeat_str].
    + exact (at_bar 0 _ _ (at_zero _)).
    + rewrite <- string_app_assoc. apply at_blank, IH.
Qed.
Lemma import_inj : forall L i i', pprint_import L i = pprint_import L i' -> shown_import i = shown_import i'.
Proof.
  intros L i i' E. unfold pprint_import in E. unfold shown_import. assert (E1 := f_equal head E). assert (E2 := f_equal (@tl string) E).
  cbn [head tl] in E1, E2. apply string_app_inv_l, string_app_inv_l in E1. rewrite E1. f_equal. clear - E2.
  revert E2. generalize (imp_names i), (imp_names i'). induction l as [|x l IH]; intros [|y l'] E; try discriminate E; [reflexivity|].
  cbn [map] in E. assert (X := f_equal head E). assert (Y := f_equal (@tl string) E). cbn [head tl] in X, Y.
  apply string_app_inv_l, string_app_inv_l in X. rewrite X, (IH l' Y). reflexivity.
Qed.
Lemma import_eq : forall L i i', shown_import i = shown_import i' -> pprint_import L i = pprint_import L i'.
Proof. intros L i i' E. unfold shown_import in E. unfold pprint_import. injection E as -> ->. reflexivity. Qed.

(** ** Modules *)
Lemma lines_iff : forall m m', grammatical m = true -> grammatical m' = true ->
  (pprint_lines m = pprint_lines m' <-> outline_of m = outline_of m').
Proof.
  intros m m' G G'. unfold grammatical in G, G'. apply andb_prop in G as [_ G]. apply andb_prop in G' as [_ G']. rewrite forallb_forall in G, G'.
  unfold pprint_lines, outline_of. split.
  - intros E. assert (E1 := f_equal head E). assert (E2 := f_equal (fun l => tl (tl l)) E). clear E. cbn [head tl] in E1, E2.
    apply string_app_inv_l in E1.
    assert (Z : level 0 "├── Definitions") by (exists "├── Definitions"; exact (at_zero _)).
    apply (split_at_stop (from 1)) in E2; try (apply blocks_from; intros; apply import_block); try (cbn [stops]; apply level_not, Z).
    destruct E2 as [E2 E3]. injection E3 as E3. rewrite E1. f_equal.
    + apply (blocks_eq _ _ 1) in E2; try (intros; apply import_block). revert E2. apply map_eq. intros x y _ _. apply import_inj.
    + apply (blocks_eq _ _ 1) in E3; try (intros; apply definition_block). revert E3. apply map_eq. intros x y X Y. apply definition_inj; auto.
  - intros E. assert (A : mod_name m = mod_name m') by congruence.
    assert (B : map shown_import (mod_imports m) = map shown_import (mod_imports m')) by (unfold shown_import; congruence).
    assert (C : map shown_definition_of (mod_defs m) = map shown_definition_of (mod_defs m')) by congruence. rewrite A.
    rewrite (map_flat _ _ _ (pprint_import 1) shown_import _ (mod_imports m') (import_eq 1) B).
    rewrite (map_flat _ _ _ (pprint_definition 1) shown_definition_of _ (mod_defs m') (definition_eq 1) C). reflexivity.
Qed.

(** ** The text *)
Lemma text_cons : forall l ls, String.concat "" (map (fun l => l ++ NL) (l :: ls)) = l ++ String LF (String.concat "" (map (fun l => l ++ NL) ls)).
Proof. intros l [|x ls]; cbn [map String.concat]; [reflexivity|]. rewrite <- !string_app_assoc. reflexivity. Qed.
Lemma line_split : forall a a' r r', all_chars inline a = true -> all_chars inline a' = true -> a ++ String LF r = a' ++ String LF r' -> a = a' /\ r = r'.
Proof.
  induction a as [|x a IH]; intros [|x' a'] r r' A A' E; cbn [append all_chars] in *.
  - injection E as E. auto.
  - injection E as <- _. discriminate A'.
  - injection E as -> _. discriminate A.
  - apply andb_prop in A as [_ A]. apply andb_prop in A' as [_ A']. injection E as <- E. destruct (IH a' r r' A A' E) as [-> ->]. auto.
Qed.
Lemma text_inj : forall ls ls', Forall (fun l => all_chars inline l = true) ls -> Forall (fun l => all_chars inline l = true) ls' ->
  String.concat "" (map (fun l => l ++ NL) ls) = String.concat "" (map (fun l => l ++ NL) ls') -> ls = ls'.
Proof.
  induction ls as [|l ls IH]; intros [|l' ls'] F F' E; [reflexivity| | |].
  - rewrite text_cons in E. destruct l'; discriminate E.
  - rewrite text_cons in E. destruct l; discriminate E.
  - rewrite !text_cons in E. inversion F; inversion F'; subst. apply line_split in E as [-> E]; try assumption. f_equal. auto.
Qed.

Lemma indent_inline : forall n, all_chars inline (indent n) = true.
Proof.
  intros [|n]; [reflexivity|]. rewrite indent_S, all_chars_app. cbn [all_chars]. induction n as [|n IH]; [reflexivity|].
  cbn [repeat_str]. rewrite all_chars_app. exact IH.
Qed.
Ltac inlines := rewrite ?all_chars_app, ?indent_inline; repeat match goal with H : all_chars plain ?s = true |- context [all_chars inline ?s] => rewrite (plain_inline s H) end; reflexivity.
Lemma clause_inline : forall w L, wcomps_ok w = true -> Forall (fun l => all_chars inline l = true) (pprint_clause L w).
Proof.
  apply (clause_ind (fun w => forall L, wcomps_ok w = true -> Forall (fun l => all_chars inline l = true) (pprint_clause L w))).
  intros c l IH L O. rewrite pprint_clause_eq. assert (G := clause_ok _ _ O). apply Forall_forall. intros s S.
  apply in_flat_map in S as ([k v c'] & X & S). specialize (G _ X). cbn [witem_ok] in G. apply andb_prop in G as [G _]. apply andb_prop in G as [K V].
  apply lower_plain in K. cbn [pprint_item] in S. destruct v as [z|f|b|w].
  - destruct S as [<-|[]]. assert (Q := int_plain z). inlines.
  - destruct S as [<-|[]]. assert (Q := float_plain f V). inlines.
  - destruct S as [<-|[]]. destruct b; inlines.
  - destruct S as [<-|S]; [inlines|]. specialize (IH _ _ _ X (Datatypes.S L) V). rewrite Forall_forall in IH. exact (IH s S).
Qed.
Lemma lines_inline : forall m, grammatical m = true -> Forall (fun l => all_chars inline l = true) (pprint_lines m).
Proof.
  intros m G. unfold grammatical in G. apply andb_prop in G as [G D]. apply andb_prop in G as [G _]. apply andb_prop in G as [G _].
  apply andb_prop in G as [G M]. apply andb_prop in G as [N _]. apply lower_plain in N. rewrite forallb_forall in D, M.
  unfold pprint_lines. constructor; [inlines|]. constructor; [reflexivity|]. apply Forall_app. split; [|constructor; [reflexivity|]].
  - apply Forall_forall. intros s S. apply in_flat_map in S as (i & X & S). specialize (M i X). unfold import_ok in M.
    apply andb_prop in M as [M _]. apply andb_prop in M as [M K]. apply andb_prop in M as [_ M]. apply lower_plain in K. rewrite forallb_forall in M.
    destruct S as [<-|S]; [inlines|]. apply in_map_iff in S as (n & <- & I). specialize (M n I). apply capital_plain in M. inlines.
  - apply Forall_forall. intros s S. apply in_flat_map in S as (d & X & S). specialize (D d X). destruct d as [n c l|n c l|n c l|n t c]; cbn [definition_ok] in D.
    + apply andb_prop in D as [D O]. apply andb_prop in D as [D _]. apply andb_prop in D as [D _]. apply capital_plain in D. rewrite forallb_forall in O.
      destruct S as [<-|S]; [inlines|]. apply in_flat_map in S as (x & Y & S). destruct (member_parts x (O x Y)) as (K & T & W).
      apply lower_plain in K. assert (T' := type_name_plain _ T). destruct (type_bounds _ T) as [B E]. apply bound_plain in B. apply bound_plain in E.
      unfold pprint_member, str_type in S. destruct (m_with x) as [w|].
      * destruct S as [<-|S]; [inlines|]. assert (C := clause_inline w 3 (W w eq_refl)). rewrite Forall_forall in C. exact (C s S).
      * destruct S as [<-|[]]. inlines.
    + apply andb_prop in D as [D _]. apply andb_prop in D as [D _]. apply andb_prop in D as [D _]. apply capital_plain in D. destruct S as [<-|[]]. inlines.
    + apply andb_prop in D as [D _]. apply andb_prop in D as [D _]. apply andb_prop in D as [D _]. apply capital_plain in D. destruct S as [<-|[]]. inlines.
    + apply andb_prop in D as [D _]. apply andb_prop in D as [D T]. apply capital_plain in D.
      assert (T' := type_name_plain _ T). destruct (type_bounds _ T) as [B E]. apply bound_plain in B. apply bound_plain in E.
      destruct S as [<-|[<-|[]]]; [unfold str_type|]; inlines.
Qed.

Lemma pprint_iff : forall m m', grammatical m = true -> grammatical m' = true ->
  (pprint m = pprint m' <-> outline_of m = outline_of m').
Proof.
  intros m m' G G'. rewrite <- (lines_iff m m' G G'). unfold pprint. split; [|intros ->; reflexivity].
  apply text_inj; apply lines_inline; assumption.
Qed.
