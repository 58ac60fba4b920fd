(** * Every writable module has a spelling *)
From Coq Require Import DecimalString DecimalFacts DecimalN.
From Verif Require Import Base PyNum PyStr PyFloat Ast Grammar Spec_Grammar Spec_Syntax Str_proofs
  Check_proofs Cfs_proofs Lex_proofs Token_proofs Syntax_proofs Syntax2_proofs Syntax3_proofs Float_proofs
  Repr_proofs Grammatical_proofs.
Open Scope string_scope.

(** What comes next: a new line, or a new line or a space. *)
Definition next (line : bool) (r : string) : Prop :=
  if line then exists x, r = String LF x else exists c x, r = String c x /\ (c = LF \/ c = " "%char).
Lemma next_weaken : forall r, next true r -> next false r.
Proof. intros r (x & ->). exists LF, x. auto. Qed.

(** [P] can be written such that a [b]-text may follow, and begins like an
    [a]-text. *)
Definition pr (a b : bool) (P : step) : Prop :=
  exists p, forall r, next b r -> P (p ++ r) r /\ next a (p ++ r).
Lemma pr_seq : forall a b c P Q, pr a b P -> pr b c Q -> pr a c (P >> Q).
Proof.
  intros a b c P Q (p & HP) (q & HQ). exists (p ++ q). intros r R. destruct (HQ r R) as [Q1 Q2].
  rewrite <- string_app_assoc. destruct (HP _ Q2) as [P1 P2]. split; [|exact P2]. exists (q ++ r). auto.
Qed.
Lemma pr_weak_l : forall b P, pr true b P -> pr false b P.
Proof. intros b P (p & H). exists p. intros r R. destruct (H r R). split; [assumption|apply next_weaken; assumption]. Qed.
Lemma pr_weak_r : forall a P, pr a false P -> pr a true P.
Proof. intros a P (p & H). exists p. intros r R. apply H, next_weaken, R. Qed.
Lemma pr_nothing : forall b, pr b b nothing.
Proof. intros b. exists "". intros r R. split; [reflexivity|exact R]. Qed.
Lemma pr_nothing_r : pr false true nothing.
Proof. apply pr_weak_r, pr_nothing. Qed.

Lemma blanks_NL : forall s, blanks (String LF s) s.
Proof. intros s. exists NL. split; reflexivity. Qed.
Lemma pr_word : forall t, pr true false (word t).
Proof.
  intros t. exists (String LF t). intros r _. split; [|exists (t ++ r); reflexivity].
  exists (t ++ r). split; [apply blanks_NL|reflexivity].
Qed.
Lemma pr_text : forall t b, (forall r, next b r -> next false (t ++ r)) -> pr false b (text t).
Proof. intros t b H. exists t. intros r R. split; [reflexivity|apply H, R]. Qed.

Lemma next_name : forall r, next false r -> name_ends r.
Proof. intros r (c & x & -> & [-> | ->]); (split; [reflexivity|discriminate]). Qed.
Lemma next_not : forall f r, f LF = false -> f " "%char = false -> next false r -> not_next f r.
Proof. intros f r A B (c & x & -> & [-> | ->]); assumption. Qed.
Lemma pr_lower : forall n, is_name_lower n = true -> pr true false (lower_case n).
Proof.
  intros n H. exists (String LF n). intros r R. split; [|exists (n ++ r); reflexivity].
  exists (n ++ r). split; [apply blanks_NL|]. split; [exact H|]. split; [reflexivity|apply next_name, R].
Qed.
Lemma pr_capital : forall n, is_name_capital n = true -> pr true false (capital n).
Proof.
  intros n H. exists (String LF n). intros r R. split; [|exists (n ++ r); reflexivity].
  exists (n ++ r). split; [apply blanks_NL|]. split; [exact H|]. split; [reflexivity|apply next_name, R].
Qed.

(** Numbers *)
Lemma decimal_exists : forall n, (0 <= n)%Z -> exists ds, decimal ds n.
Proof.
  intros n H. set (u := N.to_uint (Z.to_N n)).
  assert (V : Z.of_uint u = n).
  { unfold u. change (Z.of_N (N.of_uint (N.to_uint (Z.to_N n))) = n). rewrite DecimalN.Unsigned.of_to. lia. }
  exists (NilEmpty.string_of_uint u). split; [|split; [apply uint_digits|exists u; split; [apply NilEmpty.usu|auto]]].
  intros E. assert (U := NilEmpty.usu u). rewrite E in U. injection U as U.
  rewrite <- U in V. simpl in V. unfold u in U. rewrite <- V in U. discriminate U.
Qed.
Lemma int_written : forall z, exists p, forall r, not_next letter_digit_underscore r -> int_here z (p ++ r) r.
Proof.
  intros z. destruct (decimal_exists (Z.abs z) ltac:(lia)) as (ds & D).
  destruct (z <? 0)%Z eqn:E.
  - exists ("-" ++ ds). intros r R. exists true, "-", ds, (Z.abs z). split; [reflexivity|]. split; [exact D|].
    split; [apply string_app_assoc || (symmetry; apply string_app_assoc) || reflexivity|]. split; [exact R|]. lia.
  - exists ds. intros r R. exists false, "", ds, (Z.abs z). split; [left; reflexivity|]. split; [exact D|].
    split; [reflexivity|]. split; [exact R|]. lia.
Qed.
Lemma float_ok_decimal : forall f, float_ok f = true -> exists neg n e, (0 <= n)%Z /\ f = py_float neg n e.
Proof.
  intros [d t] H. assert (V := float_ok_valid _ H). assert (R := float_ok_repr _ H). cbn [fval frepr] in V, R. subst t.
  destruct d as [neg m e|neg].
  - destruct (float_repr_reads (DFin neg m e) "" V I I) as (neg' & sg & ds & fs & n & point & expo & x & _ & D & _ & _ & _ & _ & _ & E).
    apply decimal_iff in D as (_ & D & ->). exists neg', (digits_value 0 (ds ++ fs)), (x - Z.of_nat (String.length fs))%Z.
    split; [apply (digits_value_nonneg _ 0 D); lia|exact E].
  - exists neg, 1%Z, 400%Z. split; [lia|]. destruct neg; vm_compute; reflexivity.
Qed.
Lemma float_written : forall f, float_ok f = true -> exists p, forall r,
  not_next (fun c => letter_digit_underscore c || Ascii.eqb c ".") r -> float_here f (p ++ r) r.
Proof.
  intros f F. destruct (float_ok_decimal f F) as (neg & n & e & N & ->). destruct (decimal_exists n N) as (ds & D).
  destruct (decimal_exists (Z.abs e) ltac:(lia)) as (xs & X).
  set (sg := if neg then "-" else ""). set (sx := if (e <? 0)%Z then "-" else "").
  exists (sg ++ ds ++ "e" ++ sx ++ xs). intros r R.
  exists neg, sg, ds, "", n, "", ("e" ++ sx ++ xs), e.
  split; [unfold sg; destruct neg; simpl; auto|]. split; [rewrite string_app_nil; exact D|]. split; [auto|]. split.
  { right. exists "e", (e <? 0)%Z, sx, xs, (Z.abs e). split; [auto|].
    split; [unfold sx; destruct (e <? 0)%Z; simpl; auto|]. split; [exact X|]. split; [reflexivity|].
    destruct (e <? 0)%Z eqn:E; lia. }
  split; [right; discriminate|]. split; [rewrite <- !string_app_assoc; reflexivity|]. split; [exact R|].
  rewrite Z.sub_0_r. reflexivity.
Qed.
Lemma pr_int : forall z, pr true false (int_at z).
Proof.
  intros z. destruct (int_written z) as (p & P). exists (String LF p). intros r R.
  split; [|exists (p ++ r); reflexivity]. exists (p ++ r). split; [apply blanks_NL|]. apply P, (next_not _ _ eq_refl eq_refl R).
Qed.
Lemma pr_float : forall f, float_ok f = true -> pr true false (float_at f).
Proof.
  intros f H. destruct (float_written f H) as (p & P). exists (String LF p). intros r R.
  split; [|exists (p ++ r); reflexivity]. exists (p ++ r). split; [apply blanks_NL|]. apply P, (next_not _ _ eq_refl eq_refl R).
Qed.

(** Types *)
Lemma type_written : forall t, type_ok t = true ->
  exists p, forall r, next false r -> type_at t (" " ++ p ++ r) r.
Proof.
  induction t as [[[b e]|]|[[b e]|]| | |k n|n e IH|n]; intros K; cbn [type_at type_ok] in *.
  - apply andb_true_iff in K as [Wb We]. destruct (float_written b Wb) as (p & P). destruct (float_written e We) as (q & Q).
    exists ("REAL(" ++ p ++ " .. " ++ q ++ ")"). intros r R. eexists. split; [reflexivity|].
    exists (p ++ " .. " ++ q ++ ")" ++ r). split; [rewrite <- !string_app_assoc; reflexivity|].
    exists (" .. " ++ q ++ ")" ++ r). split; [apply P; reflexivity|].
    exists (q ++ ")" ++ r). split; [reflexivity|]. exists (")" ++ r). split; [apply Q; reflexivity|reflexivity].
  - exists "REAL". intros r R. eexists. split; reflexivity.
  - destruct (int_written b) as (p & P). destruct (int_written e) as (q & Q).
    exists ("INTEGER(" ++ p ++ ".." ++ q ++ ")"). intros r R. eexists. split; [reflexivity|].
    exists (p ++ ".." ++ q ++ ")" ++ r). split; [rewrite <- !string_app_assoc; reflexivity|].
    exists (".." ++ q ++ ")" ++ r). split; [apply P; reflexivity|].
    exists (q ++ ")" ++ r). split; [reflexivity|]. exists (")" ++ r). split; [apply Q; reflexivity|reflexivity].
  - exists "INTEGER". intros r R. eexists. split; reflexivity.
  - exists "NULL". intros r R. eexists. split; reflexivity.
  - exists "BOOLEAN". intros r R. eexists. split; reflexivity.
  - destruct (int_written n) as (p & P). destruct k.
    + exists ("IA5String (SIZE (" ++ p ++ "))"). intros r R. eexists. split; [reflexivity|].
      exists (p ++ "))" ++ r). split; [rewrite <- !string_app_assoc; reflexivity|].
      exists ("))" ++ r). split; [apply P; reflexivity|reflexivity].
    + exists ("NumericString (SIZE (" ++ p ++ "))"). intros r R. eexists. split; [reflexivity|].
      exists (p ++ "))" ++ r). split; [rewrite <- !string_app_assoc; reflexivity|].
      exists ("))" ++ r). split; [apply P; reflexivity|reflexivity].
  - destruct (int_written n) as (p & P). destruct (IH K) as (q & Q).
    exists ("SEQUENCE (SIZE (" ++ p ++ ")) OF" ++ " " ++ q). intros r R. eexists. split; [reflexivity|].
    exists (p ++ ")) OF" ++ " " ++ q ++ r). split; [rewrite <- !string_app_assoc; reflexivity|].
    exists (")) OF" ++ " " ++ q ++ r). split; [apply P; reflexivity|].
    exists (" " ++ q ++ r). split; [reflexivity|apply Q, R].
  - exists n. intros r R. eexists. split; [reflexivity|]. split; [exact K|]. split; [reflexivity|apply next_name, R].
Qed.
Lemma pr_type : forall t, type_ok t = true -> pr false false (type_at t).
Proof.
  intros t K. destruct (type_written t K) as (p & P). exists (" " ++ p). intros r R.
  rewrite <- string_app_assoc. split; [apply P, R|]. exists " "%char, (p ++ r). auto.
Qed.

(** Comments *)
Lemma text_here_no_line : forall t x y, ~ text_here t (String LF x) y.
Proof.
  intros [|c t] x y (N & C & E & _); [congruence|]. injection E as <- _. discriminate C.
Qed.
Lemma prefix_letters : forall a t x r, all_chars (fun c => negb (Ascii.eqb c LF)) a = true ->
  t ++ String LF r = a ++ x -> exists y, t = a ++ y.
Proof.
  induction a as [|c a IH]; intros t x r A E; [exists t; reflexivity|]. simpl in A. apply andb_true_iff in A as [A1 A2].
  destruct t as [|d t].
  - injection E as <- _. discriminate A1.
  - injection E as -> E. destruct (IH _ _ _ A2 E) as (y & ->). exists y. reflexivity.
Qed.
Lemma unit_no_line : forall u, all_chars unit_char u = true ->
  all_chars (fun c => negb (Ascii.eqb c LF)) ("[" ++ u ++ "]") = true.
Proof.
  intros u H. simpl. rewrite all_chars_app. cbn [all_chars andb]. rewrite andb_true_iff. split; [|reflexivity].
  revert H. apply all_chars_imp. intros [[] [] [] [] [] [] [] []] H; try reflexivity; discriminate H.
Qed.
Lemma pr_comment : forall c, comment_ok c = true -> plain_comment c -> pr false true (comment_at c).
Proof.
  intros [t u le] K (B & E1 & E2). unfold comment_ok in K. cbn [cm_text cm_unit cm_little_endian] in *.
  apply andb_true_iff in K as [KT KU].
  set (pl := if le then "ENDIANNESS(LITTLE) " else "").
  set (pu := if String.eqb u "" then "" else "[" ++ u ++ "] ").
  exists (" -- " ++ pl ++ pu ++ t). intros r (x & ->). split; [|exists " "%char; eexists; split; [reflexivity|auto]].
  assert (NT : no_space (t ++ String LF x)) by (destruct t as [|d t]; [reflexivity|exact B]).
  assert (NU : no_space (pu ++ t ++ String LF x)).
  { unfold pu. destruct (String.eqb u ""); [exact NT|reflexivity]. }
  exists (pl ++ pu ++ t ++ String LF x), (pu ++ t ++ String LF x), (t ++ String LF x).
  split. { exists ("-- " ++ pl ++ pu ++ t ++ String LF x). split; [exists 1%nat; rewrite <- !string_app_assoc; reflexivity|].
    exists (" " ++ pl ++ pu ++ t ++ String LF x). split; [reflexivity|]. exists 1%nat. reflexivity. }
  split. { unfold pl. destruct le; [reflexivity|exact NU]. }
  split. { cbn [cm_little_endian]. unfold pl. destruct le.
    - exists (" " ++ pu ++ t ++ String LF x). split; [reflexivity|exists 1%nat; reflexivity].
    - split; [reflexivity|]. intros y Y. simpl in Y. unfold pu in Y. destruct (String.eqb u "") eqn:U.
      + apply String.eqb_eq in U. destruct (prefix_letters "ENDIANNESS(LITTLE)" t y x eq_refl Y) as (z & Z).
        destruct (E2 U eq_refl z Z).
      + discriminate Y. }
  split; [exact NU|]. split.
  { cbn [cm_unit]. unfold pu. destruct (String.eqb u "") eqn:U.
    - apply String.eqb_eq in U. split; [reflexivity|]. intros v y (V & W & Y).
      destruct (prefix_letters ("[" ++ v ++ "]") t y x (unit_no_line v W)) as (z & Z).
      + rewrite <- !string_app_assoc. exact Y.
      + apply (E1 U v z). split; [exact V|]. split; [exact W|]. rewrite Z, <- !string_app_assoc. reflexivity.
    - apply String.eqb_neq in U. exists (" " ++ t ++ String LF x). split; [|exists 1%nat; reflexivity].
      split; [exact U|]. split; [exact KU|]. rewrite <- !string_app_assoc. reflexivity. }
  split; [exact NT|]. cbn [cm_text]. destruct (String.eqb t "") eqn:T.
  - apply String.eqb_eq in T as ->. split; [reflexivity|]. intros v y. apply text_here_no_line.
  - apply String.eqb_neq in T. split; [exact T|]. split; [exact KT|]. split; [reflexivity|]. right. exists x. reflexivity.
Qed.
Lemma pr_comment_opt : forall c, comment_opt_ok c = true -> plain_comment_opt c -> pr false true (comment_opt_at c).
Proof. intros [c|] K P; [apply pr_comment; assumption|apply pr_nothing_r]. Qed.

(** Lists *)
Lemma pr_items : forall A (item : A -> step) cm l, l <> [] ->
  (forall x, In x l -> pr true false (item x) /\ pr false true (comment_opt_at (cm x))) -> pr true true (items item cm l).
Proof.
  intros A item cm. induction l as [|x l IH]; intros N H; [congruence|]. cbn [items].
  destruct (H x (or_introl eq_refl)) as [H1 H2]. destruct l as [|y l].
  - eapply pr_seq; eassumption.
  - eapply pr_seq; [exact H1|]. eapply pr_seq; [apply pr_weak_l, pr_word|]. eapply pr_seq; [exact H2|].
    apply IH; [discriminate|]. intros z Z. apply H. right. exact Z.
Qed.

Lemma components_writable : forall l, fold_right (fun i p => component_writable i /\ p) True l ->
  forall i, In i l -> component_writable i.
Proof. induction l as [|x l IH]; intros H i I; [destruct I|]. destruct H as [H1 H2]. destruct I as [<-|I]; auto. Qed.

Lemma pr_clause : forall w, wcomps_ok w = true -> clause_writable w -> pr true false (clause_at w).
Proof.
  induction w as [c l IH] using clause_ind. intros K [W1 W2].
  assert (KI := wcomps_ok_items _ K). cbn [wc_items] in KI. rewrite Forall_forall in KI.
  cbn [wcomps_ok] in K. apply andb_true_iff in K as [K _]. apply andb_true_iff in K as [K1 K2].
  rewrite clause_unfold. eapply pr_seq; [apply pr_word|]. eapply pr_seq; [apply pr_comment_opt; assumption|].
  eapply pr_seq; [|apply pr_word]. apply pr_items; [destruct l; discriminate|].
  intros [k v cm] I. specialize (KI _ I). assert (W := components_writable _ W2 _ I). destruct W as [V C].
  cbn [witem_ok] in KI. apply andb_true_iff in KI as [KI C2]. apply andb_true_iff in KI as [KI V2].
  split; [|apply pr_comment_opt; assumption]. rewrite component_unfold.
  eapply pr_seq; [apply pr_lower, KI|]. apply pr_weak_l.
  destruct v as [z|f|b|w]; cbn [value_at].
  - eapply pr_seq; [apply pr_word|]. apply pr_weak_l. eapply pr_seq; [apply pr_int|]. apply pr_weak_l, pr_word.
  - eapply pr_seq; [apply pr_word|]. apply pr_weak_l. eapply pr_seq; [apply pr_float, V2|]. apply pr_weak_l, pr_word.
  - destruct b; (eapply pr_seq; [apply pr_word|]; apply pr_weak_l; eapply pr_seq; [apply pr_word|]; apply pr_weak_l, pr_word).
  - eapply IH; [exact I|exact V2|exact V].
Qed.

Lemma pr_members : forall l, l <> [] -> forallb member_ok l = true -> Forall member_writable l -> pr true true (members_at l).
Proof.
  induction l as [|m l IH]; intros N K W; [congruence|]. cbn [forallb] in K. apply andb_true_iff in K as [K1 K2].
  inversion W as [|? ? W1 W2]; subst. destruct W1 as (WC & WW).
  unfold member_ok in K1. apply andb_true_iff in K1 as [K1 KW]. apply andb_true_iff in K1 as [K1 KC].
  apply andb_true_iff in K1 as [KK KT].
  assert (M : pr true false (member_at m)) by (eapply pr_seq; [apply pr_lower, KK|apply pr_type; assumption]).
  assert (C : pr false true (comment_opt_at (m_comment m))) by (apply pr_comment_opt; assumption).
  cbn [members_at]. eapply pr_seq; [exact M|].
  destruct (m_with m) as [w|].
  - assert (CL : pr true false (clause_at w)) by (apply pr_clause; assumption).
    destruct l as [|y l].
    + eapply pr_seq; [exact C|apply pr_weak_r, CL].
    + eapply pr_seq; [exact C|]. eapply pr_seq; [exact CL|]. eapply pr_seq; [apply pr_weak_l, pr_weak_r, pr_word|].
      apply IH; [discriminate|exact K2|exact W2].
  - destruct l as [|y l]; [exact C|]. eapply pr_seq; [apply pr_weak_l, pr_word|]. eapply pr_seq; [exact C|].
    apply IH; [discriminate|exact K2|exact W2].
Qed.
Lemma nil_false : forall A (l : list A), negb (is_nil l) = true -> l <> [].
Proof. intros A [|x l] H; discriminate. Qed.

Lemma pr_definition : forall d, definition_ok d = true -> definition_writable d -> pr true true (definition_at d).
Proof.
  intros d K W. destruct d as [n c l|n c l|n c l|n t c]; cbn [definition_ok definition_writable] in *;
    unfold definition_at; cbn [def_name].
  - apply andb_true_iff in K as [K K3]. apply andb_true_iff in K as [K K2]. apply andb_true_iff in K as [K0 K1]. destruct W.
    eapply pr_seq; [apply pr_capital, K0|]. eapply pr_seq; [apply pr_weak_l, pr_word|].
    eapply pr_seq; [apply pr_comment_opt; assumption|].
    eapply pr_seq; [apply pr_members; [apply nil_false, K2|assumption..]|]. apply pr_weak_r, pr_word.
  - apply andb_true_iff in K as [K K3]. apply andb_true_iff in K as [K K2]. apply andb_true_iff in K as [K0 K1]. destruct W.
    eapply pr_seq; [apply pr_capital, K0|]. eapply pr_seq; [apply pr_weak_l, pr_word|].
    eapply pr_seq; [apply pr_comment_opt; assumption|].
    eapply pr_seq; [apply pr_members; [apply nil_false, K2|assumption..]|]. apply pr_weak_r, pr_word.
  - apply andb_true_iff in K as [K K3]. apply andb_true_iff in K as [K K2]. apply andb_true_iff in K as [K0 K1]. destruct W as [W1 W2].
    eapply pr_seq; [apply pr_capital, K0|]. eapply pr_seq; [apply pr_weak_l, pr_word|].
    eapply pr_seq; [apply pr_comment_opt; assumption|].
    eapply pr_seq; [|apply pr_weak_r, pr_word]. apply pr_items; [apply nil_false, K2|].
    intros e I. rewrite forallb_forall in K3. specialize (K3 e I). rewrite Forall_forall in W2. specialize (W2 e I).
    unfold enum_item_ok in K3. apply andb_true_iff in K3 as [K3 K4].
    split; [|apply pr_comment_opt; assumption]. unfold enum_item_at. eapply pr_seq; [apply pr_lower, K3|].
    destruct (e_written e); [|apply pr_nothing].
    eapply pr_seq; [apply pr_weak_l, pr_word|]. eapply pr_seq; [apply pr_weak_l, pr_int|]. apply pr_weak_l, pr_word.
  - apply andb_true_iff in K as [K K2]. apply andb_true_iff in K as [K0 K1].
    eapply pr_seq; [apply pr_capital, K0|]. eapply pr_seq; [apply pr_weak_l, pr_word|].
    eapply pr_seq; [apply pr_type; assumption|]. apply pr_comment_opt; assumption.
Qed.
Lemma pr_all : forall A (item : A -> step) l, (forall x, In x l -> pr true true (item x)) -> pr true true (all_at item l).
Proof.
  intros A item. induction l as [|x l IH]; intros H; [apply pr_nothing|]. cbn [all_at].
  eapply pr_seq; [apply H; left; reflexivity|]. apply IH. intros y Y. apply H. right. exact Y.
Qed.
Lemma pr_names : forall l, l <> [] -> forallb is_name_capital l = true -> pr true false (names_at l).
Proof.
  induction l as [|n l IH]; intros N K; [congruence|]. cbn [forallb] in K. apply andb_true_iff in K as [K1 K2].
  cbn [names_at]. eapply pr_seq; [apply pr_capital, K1|]. destruct l as [|n' l]; [apply pr_nothing|].
  eapply pr_seq; [apply pr_weak_l, pr_word|]. apply pr_weak_l, IH; [discriminate|exact K2].
Qed.
Lemma pr_import : forall i, import_ok i = true -> plain_comment_opt (imp_comment i) -> pr true true (import_at i).
Proof.
  intros i K W. unfold import_ok in K. apply andb_true_iff in K as [K K3]. apply andb_true_iff in K as [K K2].
  apply andb_true_iff in K as [K0 K1]. unfold import_at.
  eapply pr_seq; [apply pr_names; [apply nil_false, K0|exact K1]|]. eapply pr_seq; [apply pr_weak_l, pr_word|].
  eapply pr_seq; [apply pr_weak_l, pr_lower, K2|]. apply pr_comment_opt; assumption.
Qed.

Lemma writable_spelt : forall m, grammatical m = true -> writable m -> exists s, spells s m.
Proof.
  intros m K (W1 & W2 & W3 & W4 & W5). unfold grammatical in K.
  apply andb_true_iff in K as [K K5]. apply andb_true_iff in K as [K K4]. apply andb_true_iff in K as [K K3].
  apply andb_true_iff in K as [K K2]. apply andb_true_iff in K as [K0 K1].
  assert (P : pr true false (module_at m)).
  { unfold module_at. eapply pr_seq; [apply pr_word|]. eapply pr_seq; [apply pr_weak_l, pr_lower, K0|].
    eapply pr_seq; [apply pr_weak_l, pr_word|]. eapply pr_seq; [apply pr_comment_opt; assumption|].
    eapply pr_seq with (b := true).
    - unfold imports_at. destruct (mod_imports m) as [|i l] eqn:I.
      + exists "". intros r R. split; [split; [apply W3; reflexivity|reflexivity]|exact R].
      + eapply pr_seq; [apply pr_word|]. eapply pr_seq.
        * apply pr_weak_l. apply pr_all. intros j J. rewrite forallb_forall in K2. rewrite Forall_forall in W4.
          apply pr_import; [apply K2, J|apply W4, J].
        * eapply pr_seq; [apply pr_word|]. apply pr_comment_opt; assumption.
    - eapply pr_seq; [|apply pr_word].
      destruct (pr_all _ definition_at (mod_defs m)) as (p & H).
      { intros d D. rewrite forallb_forall in K5. rewrite Forall_forall in W5. apply pr_definition; [apply K5, D|apply W5, D]. }
      exists p. intros r R. destruct (H r R) as [H1 H2]. split; [|exact H2]. split; [apply nil_false, K4|exact H1]. }
  destruct P as (p & P). exists (p ++ NL). destruct (P NL) as [H _]; [exists LF, ""; auto|].
  exists NL. split; [exact H|]. exists NL. split; reflexivity.
Qed.

(** ** Conversely *)
Lemma comment_at_plain : forall c s r, comment_at c s r -> plain_comment c.
Proof.
  intros [t u le] s r (s1 & s2 & s3 & _ & _ & L & _ & U & N & T). unfold plain_comment. cbn [cm_text cm_unit cm_little_endian] in *.
  destruct (String.eqb t "") eqn:E.
  - apply String.eqb_eq in E as ->. split; [reflexivity|].
    split; [intros _ v x (_ & _ & H)|intros _ _ x H]; discriminate H.
  - destruct T as (T & _ & -> & _). split; [destruct t; [congruence|exact N]|].
    split; intros ->; cbn [String.eqb] in U; destruct U as [<- U].
    + intros v x (V & W & ->). apply (U v (x ++ r)). split; [exact V|]. split; [exact W|].
      rewrite <- !string_app_assoc. reflexivity.
    + intros -> x ->. destruct L as [<- L]. apply (L (x ++ r)). unfold text. rewrite <- !string_app_assoc. reflexivity.
Qed.
Lemma comment_opt_at_plain : forall c s r, comment_opt_at c s r -> plain_comment_opt c.
Proof. intros [c|] s r H; [eapply comment_at_plain, H|exact I]. Qed.
Lemma clause_at_writable : forall w s r, clause_at w s r -> clause_writable w.
Proof.
  induction w as [c l IH] using clause_ind. intros s r H. rewrite clause_unfold in H.
  destruct H as (m1 & _ & m2 & C & m3 & I & _). apply comment_opt_at_plain in C.
  apply items_each in I as [_ I]. split; [exact C|].
  assert (A : forall y, In y l -> component_writable y).
  { intros [k v cm] Y. destruct (I _ Y) as [(s1 & r1 & P) (s2 & r2 & Q)]. cbn [wi_comment] in Q.
    rewrite component_unfold in P. destruct P as (q & K & V). cbn [component_writable].
    split; [|eapply comment_opt_at_plain, Q]. destruct v as [z|f|b|w]; try exact Coq.Init.Logic.I.
    cbn [value_at] in V. eapply IH; [exact Y|exact V]. }
  clear - A. induction l as [|y l IHl]; [exact I|].
  split; [apply A; left; reflexivity|]. apply IHl. intros z Z. apply A. right. exact Z.
Qed.
Lemma members_at_writable : forall l s r, members_at l s r -> Forall member_writable l.
Proof.
  induction l as [|m l IH]; intros s r H; [constructor|].
  cbn [members_at] in H. destruct H as (m1 & (m0 & K & T) & H).
  destruct m as [k t c [w|]]; cbn [m_with m_comment m_type] in *; destruct l as [|y l].
  - destruct H as (q & C & W). constructor; [|constructor].
    split; [eapply comment_opt_at_plain, C|eapply clause_at_writable, W].
  - destruct H as (q & C & q2 & W & q3 & _ & H). constructor; [|eapply IH, H].
    split; [eapply comment_opt_at_plain, C|eapply clause_at_writable, W].
  - constructor; [|constructor]. split; [eapply comment_opt_at_plain, H|exact I].
  - destruct H as (q & _ & q2 & C & H). constructor; [|eapply IH, H].
    split; [eapply comment_opt_at_plain, C|exact I].
Qed.
Lemma definition_at_writable : forall d s r, definition_at d s r -> definition_writable d.
Proof.
  intros d s r (m & _ & H). destruct d as [n c l|n c l|n c l|n t c]; cbn [definition_writable].
  - destruct H as (m1 & _ & m2 & K & m3 & L & _). split; [eapply comment_opt_at_plain, K|eapply members_at_writable, L].
  - destruct H as (m1 & _ & m2 & K & m3 & L & _). split; [eapply comment_opt_at_plain, K|eapply members_at_writable, L].
  - destruct H as (m1 & _ & m2 & K & m3 & L & _). split; [eapply comment_opt_at_plain, K|].
    apply items_each in L as [_ L]. apply Forall_forall. intros e E. destruct (L e E) as [_ (s2 & r2 & Q)].
    eapply comment_opt_at_plain, Q.
  - destruct H as (m1 & _ & m2 & T & K). eapply comment_opt_at_plain, K.
Qed.
Lemma spelt_writable : forall s m, spells s m -> writable m.
Proof.
  intros s [n c l ci ds] (e & H & _). unfold module_at, imports_at in H.
  cbn [mod_name mod_comment mod_imports mod_comment_import mod_defs] in H.
  destruct H as (m1 & _ & m2 & _ & m3 & _ & m4 & H4 & m5 & H5 & m6 & (_ & H6) & _).
  unfold writable. cbn [mod_name mod_comment mod_imports mod_comment_import mod_defs].
  split; [eapply comment_opt_at_plain, H4|].
  assert (D : Forall definition_writable ds).
  { apply Forall_forall. intros d J. destruct (all_at_each _ _ _ _ _ H6 d J) as (s' & r' & Q).
    eapply definition_at_writable, Q. }
  destruct l as [|i l].
  - destruct H5 as [-> _]. repeat split; auto.
  - destruct H5 as (q1 & _ & q2 & J & q3 & _ & C). split; [eapply comment_opt_at_plain, C|]. split; [discriminate|].
    split; [|exact D]. apply Forall_forall. intros j K.
    destruct (all_at_each _ _ _ _ _ J j K) as (s' & r' & (p1 & _ & p2 & _ & p3 & _ & Q)). eapply comment_opt_at_plain, Q.
Qed.
Lemma spelt_iff : forall m, (exists s, spells s m) <-> grammatical m = true /\ writable m.
Proof.
  intros m. split.
  - intros (s & H). split; [eapply spells_grammatical, H|eapply spelt_writable, H].
  - intros [G W]. apply writable_spelt; assumption.
Qed.
Lemma readable_iff : forall m, (exists s, read_module s = Some m) <-> grammatical m = true /\ writable m.
Proof.
  intros m. rewrite <- spelt_iff. split; intros (s & H); exists s; apply read_module_iff, H.
Qed.
