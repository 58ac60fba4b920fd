(** * Proofs: the rules of the text of grammar.py are those of Peg.v *)
From Verif Require Import Base PyNum PyStr Ast Grammar Regex Peg GrammarText Spec_Regex Spec_Utf8 Spec_Peg Peg_proofs.
Open Scope string_scope.

(** ** Expressions with the same classes *)
Inductive rsame : regex -> regex -> Prop :=
| R_class : forall f g, (forall c, f c = g c) -> rsame (Class f) (Class g)
| R_then : forall a b a' b', rsame a a' -> rsame b b' -> rsame (Then a b) (Then a' b')
| R_or : forall a b a' b', rsame a a' -> rsame b b' -> rsame (Or a b) (Or a' b')
| R_star : forall a a', rsame a a' -> rsame (Star a) (Star a')
| R_maybe : forall a a', rsame a a' -> rsame (Maybe a) (Maybe a')
| R_end : rsame LineEnd LineEnd
| R_edge : forall f, rsame (Edge f) (Edge f)
| R_behind : forall f g, (forall c, f c = g c) -> rsame (Behind f) (Behind g)
| R_ahead : forall f g, (forall c, f c = g c) -> rsame (NotAhead f) (NotAhead g).

Lemma repeat_match_ext : forall f g n x, (forall x, f x = g x) -> repeat_match f n x = repeat_match g n x.
Proof.
  intros f g n. induction n as [|n IH]; intros x H; cbn; [reflexivity|].
  rewrite H. f_equal. apply flat_map_ext. intros y. apply IH, H.
Qed.
Lemma is_some_ext : forall f g o, (forall c, f c = g c) -> is_some f o = is_some g o.
Proof. intros f g [c|] H; cbn; [apply H|reflexivity]. Qed.
Lemma rsame_matches : forall a b, rsame a b -> forall x, matches a x = matches b x.
Proof.
  intros a b H. induction H; intros x; cbn; try reflexivity.
  - destruct (snd x); [reflexivity|]. now rewrite H.
  - rewrite IHrsame1. apply flat_map_ext. intros y. apply IHrsame2.
  - now rewrite IHrsame1, IHrsame2.
  - now apply repeat_match_ext.
  - now rewrite IHrsame.
  - now rewrite (is_some_ext f g).
  - now rewrite (is_some_ext f g).
Qed.
Lemma rsame_sym : forall a b, rsame a b -> rsame b a.
Proof. intros a b H. induction H; constructor; auto. Qed.

Inductive psame : peg -> peg -> Prop :=
| S_lit : forall t, psame (Lit t) (Lit t)
| S_rx : forall a b, rsame a b -> psame (Rx a) (Rx b)
| S_cat : forall a b a' b', psame a a' -> psame b b' -> psame (Cat a b) (Cat a' b')
| S_choose : forall a b a' b', psame a a' -> psame b b' -> psame (Choose a b) (Choose a' b')
| S_rep : forall a a', psame a a' -> psame (Rep a) (Rep a')
| S_optional : forall a a', psame a a' -> psame (Optional a) (Optional a')
| S_rule : forall n, psame (Rule n) (Rule n)
| S_attr : forall n a a', psame a a' -> psame (Attr n a) (Attr n a')
| S_end : psame End End.
Lemma psame_sym : forall a b, psame a b -> psame b a.
Proof. intros a b H. induction H; constructor; auto using rsame_sym. Qed.

Definition same_rule (x y : string * rule) : Prop :=
  fst x = fst y /\ r_noskipws (snd x) = r_noskipws (snd y) /\ r_object (snd x) = r_object (snd y)
  /\ psame (r_body (snd x)) (r_body (snd y)).
Lemma same_rule_sym : forall x y, same_rule x y -> same_rule y x.
Proof. intros x y (A & B & C & D). repeat split; auto using psame_sym. Qed.

Lemma find_same : forall l l', Forall2 same_rule l l' -> forall n r, find_rule l n = Some r ->
  exists r', find_rule l' n = Some r' /\ r_noskipws r = r_noskipws r' /\ r_object r = r_object r' /\ psame (r_body r) (r_body r').
Proof.
  intros l l' H. induction H as [|[m a] [m' a'] l l' (A & B & C & D) H IH]; intros n r E; cbn in *; [discriminate|].
  subst m'. destruct (String.eqb m n).
  - injection E as <-. exists a'. auto.
  - auto.
Qed.

Lemma parses_same : forall l l', Forall2 same_rule l l' -> forall a ws x r, Parses (find_rule l) a ws x r ->
  forall b, psame a b -> Parses (find_rule l') b ws x r.
Proof.
  intros l l' L a ws x r H. induction H; intros b' Q; inversion Q; subst; clear Q.
  - constructor.
  - rewrite (rsame_matches _ _ H0). constructor.
  - eapply P_cat; eauto.
  - eapply P_cat_no1; eauto.
  - eapply P_cat_no2; eauto.
  - apply P_first; auto.
  - apply P_second; auto.
  - apply P_stop; auto.
  - eapply P_more; [auto|]. apply IHParses2. constructor. assumption.
  - apply P_there; auto.
  - apply P_absent; auto.
  - destruct (find_same _ _ L _ _ H) as (r' & E & B & C & D). rewrite C. rewrite B in IHParses. eapply P_rule; eauto.
  - destruct (find_same _ _ L _ _ H) as (r' & E & B & C & D). rewrite B in IHParses. eapply P_rule_no; eauto.
  - apply P_attr; auto.
  - apply P_attr_no; auto.
  - constructor.
Qed.

(** ** The text *)
Section Unicode.
Variables digit word : N -> bool.

Definition read_rules_text : list srule := Eval vm_compute in match written_rules with Some l => l | None => [] end.
Lemma written : written_rules = Some read_rules_text.
Proof. vm_compute. reflexivity. Qed.

Ltac same_class := intros c; cbv [set_class existsb item_class name_class]; rewrite ?orb_false_r, ?orb_assoc; reflexivity.
Ltac same := repeat (first [apply Forall2_nil | apply Forall2_cons | split; [reflexivity|split; [reflexivity|split; [reflexivity|]]] | constructor; try same_class]).
Lemma rules_same : Forall2 same_rule (map (rule_of digit word) read_rules_text) (grammar digit word).
Proof.
  unfold read_rules_text, grammar. cbn [map].
  repeat (apply Forall2_cons; [split; [reflexivity|split; [reflexivity|split; [reflexivity|
    cbn; unfold comment_opt, range_of, component_values, Plus; repeat (constructor; try same_class)]]]|]).
  apply Forall2_nil.
Qed.
End Unicode.
