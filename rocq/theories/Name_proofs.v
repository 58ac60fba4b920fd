(** * Proofs about names *)
From Coq Require Import ZifyBool ZifyNat ZifyN.
From Verif Require Import Base PyStr Ast CCommon Lib_proofs Str_proofs Spec_Grammar.
Open Scope string_scope.

Lemma ascii_N_eq : forall a b, N_of_ascii a = N_of_ascii b -> a = b.
Proof. intros a b H. rewrite <- (ascii_N_embedding a), <- (ascii_N_embedding b), H. reflexivity. Qed.

Lemma ascii_eqb_N : forall a b, Ascii.eqb a b = N.eqb (N_of_ascii a) (N_of_ascii b).
Proof.
  intros a b. destruct (Ascii.eqb_spec a b) as [->|H].
  - symmetry. apply N.eqb_refl.
  - symmetry. apply N.eqb_neq. intros E. apply H, ascii_N_eq, E.
Qed.

Lemma N_ascii_small : forall n, (n < 256)%N -> N_of_ascii (ascii_of_N n) = n.
Proof. apply N_ascii_embedding. Qed.

(** Characters of names: lower-case letters, digits, hyphens. *)
Definition nchar (c : ascii) : bool := name_char c || Ascii.eqb c "-".

Lemma name_tail_chars : forall s, name_tail s = true -> all_chars nchar s = true.
Proof.
  fix IH 1. intros [|c r] H; [reflexivity|]. simpl in *. unfold nchar.
  destruct (Ascii.eqb c "-") eqn:E.
  - rewrite orb_true_r. simpl. destruct r as [|d r']; [discriminate|].
    apply andb_prop in H. destruct H as [Hd Hr]. simpl. unfold nchar. rewrite Hd. simpl. apply IH. exact Hr.
  - apply andb_prop in H. destruct H as [Hc Hr]. rewrite Hc. simpl. apply IH. exact Hr.
Qed.

Lemma capital_chars : forall s, is_name_capital s = true ->
  exists c r, s = String c r /\ is_upper c = true /\ all_chars nchar r = true.
Proof.
  intros [|c r] H; [discriminate|]. simpl in H. apply andb_prop in H. destruct H as [Hc Hr].
  exists c, r. split; [reflexivity|]. split; [exact Hc|]. apply name_tail_chars. exact Hr.
Qed.

Lemma lower_chars : forall s, is_name_lower s = true ->
  exists c r, s = String c r /\ is_lower c = true /\ all_chars nchar r = true.
Proof.
  intros [|c r] H; [discriminate|]. simpl in H. apply andb_prop in H. destruct H as [Hc Hr].
  exists c, r. split; [reflexivity|]. split; [exact Hc|]. apply name_tail_chars. exact Hr.
Qed.

(** The four kinds of characters that occur in names, by code. *)
Lemma nchar_codes : forall c, nchar c = true <->
  (97 <= N_of_ascii c <= 122 \/ 48 <= N_of_ascii c <= 57 \/ N_of_ascii c = 45)%N.
Proof.
  intros c. unfold nchar, name_char, is_lower, is_digit. rewrite ascii_eqb_N.
  change (N_of_ascii "-") with 45%N. lia.
Qed.

Lemma upper_codes : forall c, is_upper c = true <-> (65 <= N_of_ascii c <= 90)%N.
Proof. intros c. unfold is_upper. lia. Qed.
Lemma lower_codes : forall c, is_lower c = true <-> (97 <= N_of_ascii c <= 122)%N.
Proof. intros c. unfold is_lower. lia. Qed.

(** A character function that is injective on a class of characters is
    injective on strings over it. *)
Lemma str_map_inj : forall (P : ascii -> bool) f,
  (forall a b, P a = true -> P b = true -> f a = f b -> a = b) ->
  forall s t, all_chars P s = true -> all_chars P t = true -> str_map f s = str_map f t -> s = t.
Proof.
  intros P f Hf. induction s as [|a s IH]; intros [|b t] Hs Ht H; simpl in *; try discriminate; [reflexivity|].
  apply andb_prop in Hs, Ht. destruct Hs as [Ha Hs], Ht as [Hb Ht]. injection H as H1 H2.
  rewrite (Hf a b Ha Hb H1), (IH t Hs Ht H2). reflexivity.
Qed.

Definition us (c : ascii) : ascii := if Ascii.eqb c "-" then "_"%char else c.

(** Characters of type, member and module names. *)
Definition anychar (c : ascii) : bool := nchar c || is_upper c.

Lemma us_inj : forall a b, anychar a = true -> anychar b = true -> us a = us b -> a = b.
Proof.
  intros a b Ha Hb. unfold us.
  assert (Na : N_of_ascii a <> 95%N /\ N_of_ascii b <> 95%N).
  { unfold anychar in *. apply orb_prop in Ha, Hb.
    rewrite nchar_codes, upper_codes in *. lia. }
  destruct (Ascii.eqb a "-") eqn:Ea; destruct (Ascii.eqb b "-") eqn:Eb; intros H.
  - apply Ascii.eqb_eq in Ea, Eb. congruence.
  - subst b. exfalso. destruct Na as [N1 N2]. first [apply N1; reflexivity | apply N2; reflexivity].
  - subst a. exfalso. destruct Na as [N1 N2]. first [apply N1; reflexivity | apply N2; reflexivity].
  - exact H.
Qed.

Lemma all_chars_impl : forall (P Q : ascii -> bool) s,
  (forall c, P c = true -> Q c = true) -> all_chars P s = true -> all_chars Q s = true.
Proof.
  intros P Q s H. induction s as [|c s IH]; simpl; [reflexivity|]. intros G.
  apply andb_prop in G. destruct G as [G1 G2]. rewrite (H c G1), (IH G2). reflexivity.
Qed.

Definition is_name (s : string) : bool := is_name_capital s || is_name_lower s.

Lemma name_anychar : forall s, is_name s = true -> all_chars anychar s = true.
Proof.
  intros s H. unfold is_name in H. apply orb_prop in H. destruct H as [H|H].
  - apply capital_chars in H. destruct H as (c & r & -> & Hc & Hr). simpl. unfold anychar at 1.
    rewrite Hc, orb_true_r. simpl. eapply all_chars_impl; [|exact Hr].
    intros d Hd. unfold anychar. rewrite Hd. reflexivity.
  - apply lower_chars in H. destruct H as (c & r & -> & Hc & Hr). simpl. unfold anychar at 1.
    unfold nchar, name_char. rewrite Hc. simpl. eapply all_chars_impl; [|exact Hr].
    intros d Hd. unfold anychar. rewrite Hd. reflexivity.
Qed.

(** No name of the grammar is one of the two string types. *)
Lemma c_name_eq : forall s, is_name s = true -> c_name s = str_map us s.
Proof.
  intros s H. unfold c_name. destruct (mem s ["IA5String"; "NumericString"]) eqn:E; [|reflexivity].
  apply mem_In in E. destruct E as [<-|[<-|[]]]; discriminate.
Qed.

Lemma c_name_inj : forall a b, is_name a = true -> is_name b = true -> c_name a = c_name b -> a = b.
Proof.
  intros a b Ha Hb. rewrite !c_name_eq by assumption.
  apply (str_map_inj anychar us us_inj); apply name_anychar; assumption.
Qed.

Lemma capital_name : forall s, is_name_capital s = true -> is_name s = true.
Proof. intros s H. unfold is_name. rewrite H. reflexivity. Qed.
Lemma lower_name : forall s, is_name_lower s = true -> is_name s = true.
Proof. intros s H. unfold is_name. rewrite H. apply orb_true_r. Qed.

Lemma us_upper : forall c, is_upper c = true -> us c = c.
Proof. intros c H. unfold us. rewrite ascii_eqb_N. apply upper_codes in H. change (N_of_ascii "-") with 45%N.
  replace (N_of_ascii c =? 45)%N with false by lia. reflexivity. Qed.
Lemma us_lower : forall c, is_lower c = true -> us c = c.
Proof. intros c H. unfold us. rewrite ascii_eqb_N. apply lower_codes in H. change (N_of_ascii "-") with 45%N.
  replace (N_of_ascii c =? 45)%N with false by lia. reflexivity. Qed.

Lemma lower_char_upper : forall c, is_upper c = true ->
  is_lower (lower_char c) = true /\ lower_char c <> c.
Proof.
  intros c H. unfold lower_char. rewrite H. apply upper_codes in H. split.
  - apply lower_codes. rewrite N_ascii_small; lia.
  - intros E. assert (G := f_equal N_of_ascii E). rewrite N_ascii_small in G; lia.
Qed.

Lemma upper_char_lower : forall c, is_lower c = true ->
  N_of_ascii (upper_char c) = (N_of_ascii c - 32)%N.
Proof. intros c H. unfold upper_char. rewrite H. apply lower_codes in H. apply N_ascii_small. lia. Qed.

(** The instance name of a type differs from the type's name. *)
Lemma instance_name_neq : forall a b, is_name_capital a = true -> is_name_capital b = true ->
  lowerize (c_name a) <> c_name b.
Proof.
  intros a b Ha Hb H. rewrite !c_name_eq in H by (apply capital_name; assumption).
  apply capital_chars in Ha, Hb. destruct Ha as (c & r & -> & Hc & _), Hb as (d & r' & -> & Hd & _).
  simpl in H. injection H as H _. rewrite us_upper in H by exact Hc. rewrite us_upper in H by exact Hd.
  assert (G := proj1 (lower_char_upper c Hc)). rewrite H in G.
  apply lower_codes in G. apply upper_codes in Hd. lia.
Qed.

(** Upper-cased C names of types. *)
Definition up_us (c : ascii) : ascii := upper_char (us c).

Lemma str_map_comp : forall f g s, str_map f (str_map g s) = str_map (fun c => f (g c)) s.
Proof. intros f g s. induction s as [|c s IH]; simpl; [reflexivity|]. rewrite IH. reflexivity. Qed.

Lemma up_us_code : forall c, nchar c = true ->
  N_of_ascii (up_us c) =
    (if is_lower c then N_of_ascii c - 32 else if N_of_ascii c =? 45 then 95 else N_of_ascii c)%N.
Proof.
  intros c H. apply nchar_codes in H. unfold up_us, us. rewrite ascii_eqb_N.
  change (N_of_ascii "-") with 45%N. destruct (is_lower c) eqn:El.
  - assert (L := El). apply lower_codes in L.
    replace (N_of_ascii c =? 45)%N with false by lia. apply upper_char_lower. exact El.
  - destruct (N_of_ascii c =? 45)%N eqn:E; [reflexivity|]. unfold upper_char. rewrite El. reflexivity.
Qed.

Lemma up_us_inj : forall a b, nchar a = true -> nchar b = true -> up_us a = up_us b -> a = b.
Proof.
  intros a b Ha Hb H. apply (f_equal N_of_ascii) in H. rewrite !up_us_code in H by assumption.
  apply nchar_codes in Ha, Hb. apply ascii_N_eq.
  destruct (is_lower a) eqn:La; destruct (is_lower b) eqn:Lb; unfold is_lower in La, Lb;
    destruct (N_of_ascii a =? 45)%N eqn:Ea; destruct (N_of_ascii b =? 45)%N eqn:Eb; lia.
Qed.

Lemma upper_c_name_inj : forall a b, is_name_capital a = true -> is_name_capital b = true ->
  upper (c_name a) = upper (c_name b) -> a = b.
Proof.
  intros a b Ha Hb. rewrite !c_name_eq by (apply capital_name; assumption). unfold upper.
  rewrite !str_map_comp. apply capital_chars in Ha, Hb.
  destruct Ha as (c & r & -> & Hc & Hr), Hb as (d & r' & -> & Hd & Hr'). simpl. intros H.
  injection H as H1 H2. f_equal.
  - assert (Uc : upper_char (us c) = c).
    { rewrite us_upper by exact Hc. unfold upper_char, is_lower. apply upper_codes in Hc.
      replace ((97 <=? N_of_ascii c)%N && (N_of_ascii c <=? 122)%N) with false by lia. reflexivity. }
    assert (Ud : upper_char (us d) = d).
    { rewrite us_upper by exact Hd. unfold upper_char, is_lower. apply upper_codes in Hd.
      replace ((97 <=? N_of_ascii d)%N && (N_of_ascii d <=? 122)%N) with false by lia. reflexivity. }
    congruence.
  - apply (str_map_inj nchar up_us up_us_inj); assumption.
Qed.

(** Same for module and member names. *)
Lemma upper_c_name_lower_inj : forall a b, is_name_lower a = true -> is_name_lower b = true ->
  upper (c_name a) = upper (c_name b) -> a = b.
Proof.
  intros a b Ha Hb. rewrite !c_name_eq by (apply lower_name; assumption). unfold upper.
  rewrite !str_map_comp. apply lower_chars in Ha, Hb.
  assert (G : forall c r, is_lower c = true -> all_chars nchar r = true ->
            all_chars nchar (String c r) = true).
  { intros c r Hc Hr. simpl. unfold nchar at 1, name_char. rewrite Hc. exact Hr. }
  destruct Ha as (c & r & -> & Hc & Hr), Hb as (d & r' & -> & Hd & Hr').
  apply (str_map_inj nchar up_us up_us_inj); apply G; assumption.
Qed.
