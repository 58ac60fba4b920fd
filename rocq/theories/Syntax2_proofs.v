(** * The grammar reads exactly the spellings of modules: clauses, members,
    definitions, imports, modules *)
From Verif Require Import Base PyNum PyFloat PyStr Ast Grammar Spec_Grammar Spec_Syntax Str_proofs
  Check_proofs Lex_proofs Token_proofs Syntax_proofs.
Open Scope string_scope.

(** ** Chains: all items but the last are followed by a comma *)
Section Chain.
  Context {A : Type} (sep fin : A -> step).
  Fixpoint chain (l : list A) : step :=
    match l with
    | [] => fun _ _ => False
    | x :: l' => match l' with [] => fin x | _ => sep x >> chain l' end
    end.
  Lemma chain_snoc : forall l x s r, chain (l ++ [x])%list s r <-> exists m, (all_at sep l) s m /\ fin x m r.
  Proof.
    induction l as [|y l IH]; intros x s r; simpl.
    - split; [intros H; exists s; split; [reflexivity|exact H]|]. intros (m & -> & H). exact H.
    - destruct (l ++ [x])%list eqn:E; [destruct l; discriminate|]. split.
      + intros (m & H & K). rewrite <- E, IH in K. destruct K as (m' & K & K').
        exists m'. split; [exists m; split; assumption|exact K'].
      + intros (m' & (m & H & K) & K'). exists m. split; [exact H|]. rewrite <- E. apply IH. exists m'. auto.
  Qed.
End Chain.
Lemma list_snoc : forall A (l : list A), l <> [] -> exists l' x, l = (l' ++ [x])%list.
Proof. intros A l H. destruct (exists_last H) as (l' & x & ->). eauto. Qed.
Lemma chain_nonempty : forall A (sep fin : A -> step) l s r, chain sep fin l s r -> l <> [].
Proof. intros A sep fin [|x l] s r H; [destruct H|discriminate]. Qed.

Section Parse_chain.
  Context {A : Type} (sep fin : A -> step) (pn pl : parser A).
  Hypothesis pn_inv : forall s x r, pn true s = Some (x, r) -> sep x s r.
  Hypothesis pl_inv : forall s x r, pl true s = Some (x, r) -> fin x s r.
  Lemma chain_inv : forall s l m x r, many pn true s = Some (l, m) -> pl true m = Some (x, r) ->
    chain sep fin (l ++ [x])%list s r.
  Proof.
    intros s l m x r M P. apply chain_snoc. exists m. split; [|apply pl_inv, P].
    apply many_inv in M. revert s M. induction l as [|y l IH]; intros s M; [exact M|].
    destruct M as (m' & H & M). exists m'. split; [apply pn_inv, H|apply IH, M].
  Qed.

End Parse_chain.
Section Spell_chain.
  Context {A : Type} (sep fin : A -> step) (pn pl : parser A) (last : string -> Prop) (N : nat).
  Hypothesis pn_len : consumes pn true.
  Hypothesis sep_len : forall x, shrinks (sep x).
  Hypothesis sep_first : forall x s r, sep x s r -> exists c, nb s = Some c /\ is_lower c = true.
  Hypothesis fin_first : forall x s r, fin x s r -> exists c, nb s = Some c /\ is_lower c = true.
  Hypothesis pn_intro : forall x s r c, (String.length s <= N)%nat -> nb r = Some c -> is_lower c = true ->
    sep x s r -> pn true s = Some (x, r).
  Hypothesis pl_intro : forall x s r, (String.length s <= N)%nat -> last r -> fin x s r ->
    pl true s = Some (x, r) /\ pn true s = None.

  Lemma chain_intro : forall s l r, (String.length s <= N)%nat -> last r -> chain sep fin l s r ->
    exists l' x m, l = (l' ++ [x])%list /\ many pn true s = Some (l', m) /\ pl true m = Some (x, r).
  Proof.
    intros s l r L LA C. destruct (list_snoc _ _ (chain_nonempty _ _ _ _ _ _ C)) as (l' & x & ->).
    apply chain_snoc in C as (m & R & F). exists l', x, m. split; [reflexivity|].
    assert (LM : (String.length m <= String.length s)%nat).
    { clear - R sep_len. revert s R. induction l' as [|y l IH]; simpl; intros s R; [rewrite R; lia|].
      destruct R as (m' & A1 & R). apply sep_len in A1. apply IH in R. lia. }
    destruct (pl_intro x m r ltac:(lia) LA F) as [P1 P2]. split; [|exact P1].
    apply many_intro; [exact pn_len| |exact P2].
    destruct (fin_first _ _ _ F) as (c & NB & LO). clear F P1 P2 LM.
    revert s L R. induction l' as [|y l IH]; simpl; intros s L R; [exact R|].
    destruct R as (m' & A1 & R). exists m'. assert (A2 := sep_len _ _ _ A1). split; [|apply IH; [lia|exact R]].
    assert (Q : exists c', nb m' = Some c' /\ is_lower c' = true).
    { destruct l as [|z l]; [rewrite R; eauto|]. destruct R as (m2 & A3 & _). eapply sep_first, A3. }
    destruct Q as (c' & Q1 & Q2). eapply pn_intro; eassumption.
  Qed.
End Spell_chain.

(** Items as chains *)
Section Items_chain.
  Context {A : Type} (item : A -> step) (cm : A -> option comment).
  Definition item_sep (x : A) : step := item x >> word "," >> comment_opt_at (cm x).
  Definition item_fin (x : A) : step := item x >> comment_opt_at (cm x).
  Lemma items_chain : forall l s r, items item cm l s r <-> chain item_sep item_fin l s r.
  Proof.
    induction l as [|x l IH]; intros s r; [reflexivity|]. cbn [items chain].
    destruct l as [|y l]; [reflexivity|]. unfold item_sep. split.
    - intros (m1 & H1 & m2 & H2 & m3 & H3 & H4). apply IH in H4. exists m3. split; [|exact H4]. build.
    - intros (m3 & (m1 & H1 & m2 & H2 & H3) & H4). apply IH in H4. build.
  Qed.
End Items_chain.

(** ** Helpers *)
Lemma nb_word : forall c t s r, is_blank c = false -> word (String c t) s r -> nb s = Some c.
Proof. exact word_nb. Qed.
Lemma lit_nb_fail : forall c t s d, nb s = Some d -> d <> c -> is_blank c = false -> lit (String c t) true s = None.
Proof. intros c t s d H D B. apply lit_true_fail; [congruence|exact B]. Qed.
Lemma solid_str : forall c t, is_blank c = false -> solid (String c t).
Proof. intros c t H. exists c, t. auto. Qed.
Lemma comment_opt_nb : forall c s r, comment_opt_at c s r -> nb s = Some "-"%char \/ nb s = nb r.
Proof. intros [c|] s r H; [left; eapply comment_nb, H|right]. simpl in H. unfold nothing in H. subst. reflexivity. Qed.
Lemma lower_first : forall c, is_lower c = true -> c <> "-"%char /\ c <> ","%char /\ c <> "("%char /\ c <> "}"%char.
Proof. intros c H. repeat split; intros ->; discriminate H. Qed.

Ltac wlit := apply lit_true_intro; [apply solid_str; reflexivity|eassumption].
Ltac words := repeat first
  [ eapply andthen_intro; [apply lit_true_intro; [apply solid_str; reflexivity|eassumption]|]
  | eapply andthen_intro; [apply lower_case_intro; eassumption|]
  | eapply andthen_intro; [apply capital_intro; eassumption|]
  | eapply andthen_intro; [apply INT_true_intro; eassumption|]
  | eapply andthen_intro; [apply STRICTFLOAT_true_intro; eassumption|] ].

(** ** WITH COMPONENTS *)
Definition wi_item_at (i : witem) : step := component_at i.
Lemma component_unfold : forall k v c, component_at (WI k v c) = (lower_case k >> value_at v).
Proof. reflexivity. Qed.
Lemma clause_unfold : forall c l, clause_at (WC c l) =
  (word "(WITH COMPONENTS {" >> comment_opt_at c >> items component_at wi_comment l >> word "})").
Proof. reflexivity. Qed.

Lemma value_inv : forall p, (forall s w r, p true s = Some (w, r) -> clause_at w s r) ->
  forall s v r, component_value p true s = Some (v, r) -> value_at v s r.
Proof.
  unfold component_value. intros p P s v r H.
  repeat (apply orelse_inv in H as [H | [_ H]]); inv; cbn [value_at]; build. apply P. assumption.
Qed.
Lemma component_sep_inv : forall p, (forall s w r, p true s = Some (w, r) -> clause_at w s r) ->
  forall s i r, ComponentsItemNotLast p true s = Some (i, r) -> item_sep component_at wi_comment i s r.
Proof.
  unfold ComponentsItemNotLast. intros p P s i r H. inv.
  match goal with H : component_value _ _ _ = _ |- _ => apply (value_inv p P) in H end.
  unfold item_sep. eexists. split; [eexists; split; eassumption|]. build.
Qed.
Lemma component_fin_inv : forall p, (forall s w r, p true s = Some (w, r) -> clause_at w s r) ->
  forall s i r, ComponentsItemLast p true s = Some (i, r) -> item_fin component_at wi_comment i s r.
Proof.
  unfold ComponentsItemLast. intros p P s i r H. inv.
  match goal with H : component_value _ _ _ = _ |- _ => apply (value_inv p P) in H end.
  unfold item_fin. eexists. split; [eexists; split; eassumption|]. assumption.
Qed.
Lemma with_inv : forall f s w r, WithComponents f true s = Some (w, r) -> clause_at w s r.
Proof.
  induction f as [|f IH]; intros s w r H; [discriminate|]. cbn [WithComponents] in H. inv.
  rewrite clause_unfold. eexists. split; [eassumption|]. eexists. split; [eassumption|].
  eexists. split; [|eassumption]. apply items_chain. eapply chain_inv; [| |eassumption|eassumption].
  - apply component_sep_inv, IH.
  - apply component_fin_inv, IH.
Qed.

Lemma value_first : forall v s r, value_at v s r -> nb s = Some "("%char.
Proof.
  intros [z|f|[]|[c l]] s r H; cbn [value_at] in H; try rewrite clause_unfold in H;
    destruct H as (m & H & _); (eapply word_nb; [reflexivity|exact H]).
Qed.
Lemma value_intro : forall p s v r,
  (forall w, v = VWith w -> p true s = Some (w, r)) -> value_at v s r -> component_value p true s = Some (v, r).
Proof.
  unfold component_value. intros p s v r P H. destruct v as [z|f|[]|w]; cbn [value_at] in H.
  - destruct H as (m1 & H1 & m2 & H2 & H3). apply orelse_l. words. reflexivity.
  - destruct H as (m1 & H1 & m2 & H2 & H3). apply orelse_r.
    { eapply andthen_next; [wlit|]. destruct (INT true m1) as [[z x]|] eqn:E; [|apply andthen_fail, E].
      eapply andthen_next; [exact E|]. apply andthen_fail, lit_true_fail; [|reflexivity].
      apply INT_true_inv in E. eapply int_not_float; eassumption. }
    apply orelse_l. words. reflexivity.
  - destruct H as (m1 & H1 & m2 & H2 & H3).
    assert (N : nb m1 = Some "T"%char) by (eapply word_nb; [reflexivity|exact H2]).
    apply orelse_r.
    { eapply andthen_next; [wlit|]. apply andthen_fail, INT_true_fail. intros c C. rewrite N in C. injection C as <-. reflexivity. }
    apply orelse_r.
    { eapply andthen_next; [wlit|]. apply andthen_fail, FLOAT_true_fail. intros c C. rewrite N in C. injection C as <-. reflexivity. }
    apply orelse_l. words. reflexivity.
  - destruct H as (m1 & H1 & m2 & H2 & H3).
    assert (N : nb m1 = Some "F"%char) by (eapply word_nb; [reflexivity|exact H2]).
    apply orelse_r.
    { eapply andthen_next; [wlit|]. apply andthen_fail, INT_true_fail. intros c C. rewrite N in C. injection C as <-. reflexivity. }
    apply orelse_r.
    { eapply andthen_next; [wlit|]. apply andthen_fail, FLOAT_true_fail. intros c C. rewrite N in C. injection C as <-. reflexivity. }
    apply orelse_r.
    { eapply andthen_next; [wlit|]. apply andthen_fail, (lit_nb_fail _ _ _ _ N); [discriminate|reflexivity]. }
    apply orelse_l. words. reflexivity.
  - specialize (P w eq_refl).
    assert (W : exists m x, blanks s m /\ m = "(WITH" ++ x).
    { destruct w as [c l]. rewrite clause_unfold in H. destruct H as (m1 & (m & B & E) & _).
      exists m. eexists. split; [exact B|]. exact E. }
    destruct W as (m & x & B & ->).
    assert (L : lit "(" true s = Some (tt, "WITH" ++ x)).
    { apply lit_true_intro; [apply solid_str; reflexivity|]. eexists. split; [exact B|reflexivity]. }
    apply orelse_r.
    { eapply andthen_next; [exact L|]. apply andthen_fail, INT_true_fail. intros c C. injection C as <-. reflexivity. }
    apply orelse_r.
    { eapply andthen_next; [exact L|]. apply andthen_fail, FLOAT_true_fail. intros c C. injection C as <-. reflexivity. }
    apply orelse_r.
    { eapply andthen_next; [exact L|]. apply andthen_fail, lit_true_fail; [discriminate|reflexivity]. }
    apply orelse_r.
    { eapply andthen_next; [exact L|]. apply andthen_fail, lit_true_fail; [discriminate|reflexivity]. }
    eapply andthen_intro; [exact P|reflexivity].
Qed.

Lemma shr_items : forall A (item : A -> step) cm l, (forall x, In x l -> shrinks (item x)) -> shrinks (items item cm l).
Proof.
  intros A item cm. induction l as [|x l IH]; intros H; [apply shr_false|]. cbn [items].
  destruct l as [|y l].
  - apply shr_seq; [apply H; left; reflexivity|auto with shr].
  - apply shr_seq; [apply H; left; reflexivity|]. apply shr_seq; [auto with shr|]. apply shr_seq; [auto with shr|].
    apply IH. intros z Z. apply H. right. exact Z.
Qed.

Lemma shr_clause : forall w, shrinks (clause_at w).
Proof.
  induction w as [c l IH] using clause_ind. rewrite clause_unfold.
  do 2 (apply shr_seq; [auto with shr|]). apply shr_seq; [|auto with shr]. apply shr_items.
  intros [k v cm] I. rewrite component_unfold. apply shr_seq; [auto with shr|].
  destruct v as [z|f|[]|w]; cbn [value_at]; auto 8 with shr. eapply IH, I.
Qed.
#[global] Hint Resolve shr_clause : shr.
Lemma shr_value : forall v, shrinks (value_at v).
Proof. intros [z|f|[]|w]; cbn [value_at]; auto 8 with shr. Qed.
#[global] Hint Resolve shr_value : shr.
Lemma shr_component : forall i, shrinks (component_at i).
Proof. intros [k v c]. rewrite component_unfold. auto with shr. Qed.
#[global] Hint Resolve shr_component : shr.
Lemma component_first : forall i s r, component_at i s r -> exists c, nb s = Some c /\ is_lower c = true.
Proof. intros [k v c] s r (m & H & _). eapply lower_case_nb, H. Qed.

Lemma seq_strict : forall (P Q : step) s r, (forall s r, P s r -> (String.length r < String.length s)%nat) -> shrinks Q ->
  (P >> Q) s r -> (String.length r < String.length s)%nat.
Proof. intros P Q s r HP HQ (m & A & B). apply HP in A. apply HQ in B. lia. Qed.

Lemma closing_not_comma : forall c s r, comment_opt_at c s r -> nb r = Some "}"%char -> lit "," true s = None.
Proof.
  intros c s r H N. destruct (comment_opt_nb _ _ _ H) as [E|E]; rewrite ?N in E;
    (eapply lit_nb_fail; [exact E|discriminate|reflexivity]).
Qed.

Lemma clause_intro : forall f w s r, (String.length s <= f)%nat -> clause_at w s r ->
  WithComponents f true s = Some (w, r).
Proof.
  induction f as [|f IH]; intros [c l] s r L H; rewrite clause_unfold in H; destruct H as (m1 & H1 & m2 & H2 & m3 & H3 & H4).
  { apply word_len in H1. simpl in H1. lia. }
  assert (L1 : (String.length m2 <= f)%nat).
  { apply word_len in H1. apply shr_comment_opt in H2. simpl in H1. lia. }
  cbn [WithComponents]. words.
  assert (V : forall s v r, (String.length s <= f)%nat -> value_at v s r ->
    component_value (WithComponents f) true s = Some (v, r)).
  { intros s' v r' L' V. apply value_intro; [|exact V]. intros w ->. apply IH; [exact L'|exact V]. }
  assert (F : exists ch, nb m2 = Some ch /\ is_lower ch = true).
  { destruct l as [|x l]; [destruct H3|]. cbn [items] in H3.
    destruct l; destruct H3 as (q & H3 & _); eapply component_first, H3. }
  destruct F as (ch & F1 & F2).
  eapply andthen_intro; [apply comment_opt_intro; [exact H2|left]|].
  { intros E. rewrite F1 in E. injection E as ->. discriminate F2. }
  apply items_chain in H3.
  assert (NB3 : nb m3 = Some "}"%char) by (eapply word_nb; [reflexivity|exact H4]).
  destruct (chain_intro (item_sep component_at wi_comment) (item_fin component_at wi_comment)
    (ComponentsItemNotLast (WithComponents f)) (ComponentsItemLast (WithComponents f))
    (fun r => nb r = Some "}"%char) f) with (s := m2) (l := l) (r := m3) as (l' & x & m & -> & M & P);
    [..| |eapply andthen_intro; [exact M|]; eapply andthen_intro; [exact P|]; words; reflexivity]; try assumption.
  - intros s' a r' E. apply (component_sep_inv _ (with_inv f)) in E.
    refine (seq_strict _ _ _ _ _ _ E); [|auto with shr].
    intros s2 r2 C. destruct a as [k v cm]. rewrite component_unfold in C. refine (seq_strict _ _ _ _ _ _ C); [|apply shr_value].
    intros s3 r3; apply lower_case_len.
  - intros x. unfold item_sep. auto with shr.
  - intros x s' r' (q & H & _). eapply component_first, H.
  - intros x s' r' (q & H & _). eapply component_first, H.
  - intros [k v cm] s' r' d LE D LO (q & C & q2 & W & CM). cbn [wi_comment] in CM.
    rewrite component_unfold in C. destruct C as (q0 & K & C).
    unfold ComponentsItemNotLast. words. eapply andthen_intro; [apply V; [apply lower_case_len in K; lia|exact C]|].
    words. eapply andthen_intro; [apply comment_opt_intro; [exact CM|left]|reflexivity].
    rewrite D. intros E. injection E as ->. discriminate LO.
  - intros [k v cm] s' r' LE LA (q & C & CM). cbn [wi_comment] in CM.
    rewrite component_unfold in C. destruct C as (q0 & K & C).
    assert (VV : component_value (WithComponents f) true q0 = Some (v, q)).
    { apply V; [apply lower_case_len in K; lia|exact C]. }
    split.
    + unfold ComponentsItemLast. words. eapply andthen_intro; [exact VV|].
      eapply andthen_intro; [apply comment_opt_intro; [exact CM|left]|reflexivity]. rewrite LA. discriminate.
    + unfold ComponentsItemNotLast. eapply andthen_next; [apply lower_case_intro; eassumption|].
      eapply andthen_next; [exact VV|]. apply andthen_fail. eapply closing_not_comma; eassumption.
Qed.
Lemma clause_parser_inv : forall s w r, clause true s = Some (w, r) -> clause_at w s r.
Proof. intros s w r. apply with_inv. Qed.
Lemma clause_parser_intro : forall s w r, clause_at w s r -> clause true s = Some (w, r).
Proof. intros s w r. apply clause_intro. lia. Qed.
Lemma clause_nb : forall w s r, clause_at w s r -> nb s = Some "("%char.
Proof. intros w s r H. apply (value_first (VWith w) s r). exact H. Qed.
Lemma clause_fail : forall s c, nb s = Some c -> c <> "("%char -> clause true s = None.
Proof.
  intros s c H N. destruct (clause true s) as [[w r]|] eqn:E; [|reflexivity].
  apply clause_parser_inv, clause_nb in E. congruence.
Qed.
Lemma clause_calm : forall w s r, clause_at w s r -> follow s.
Proof. intros [c l] s r H. rewrite clause_unfold in H. destruct H as (m & H & _). apply (with_calm "ITH COMPONENTS {" _ _ H). Qed.

(** ** Members *)
Definition member_sep (m : member) : step :=
  member_at m >>
  match m_with m with
  | None => word "," >> comment_opt_at (m_comment m)
  | Some w => comment_opt_at (m_comment m) >> clause_at w >> word ","
  end.
Definition member_fin (m : member) : step :=
  member_at m >>
  match m_with m with
  | None => comment_opt_at (m_comment m)
  | Some w => comment_opt_at (m_comment m) >> clause_at w
  end.
Lemma members_chain : forall l s r, members_at l s r <-> chain member_sep member_fin l s r.
Proof.
  induction l as [|[k t c w] l IH]; intros s r; [reflexivity|]. cbn [members_at chain m_with m_comment].
  destruct l as [|y l].
  - unfold member_fin. cbn [m_with m_comment]. destruct w; reflexivity.
  - unfold member_sep. cbn [m_with m_comment]. destruct w as [w|]; split.
    + intros (m1 & H1 & m2 & H2 & m3 & H3 & m4 & H4 & H5). apply IH in H5. exists m4. split; [|exact H5]. build.
    + intros (m4 & (m1 & H1 & m2 & H2 & m3 & H3 & H4) & H5). apply IH in H5. build.
    + intros (m1 & H1 & m2 & H2 & m3 & H3 & H4). apply IH in H4. exists m3. split; [|exact H4]. build.
    + intros (m3 & (m1 & H1 & m2 & H2 & H3) & H4). apply IH in H4. build.
Qed.
Lemma member_sep_inv : forall s m r, KeyTypePairNotLast true s = Some (m, r) -> member_sep m s r.
Proof.
  unfold KeyTypePairNotLast. intros s m r H. apply orelse_inv in H as [H | [_ H]]; inv;
    match goal with H : typ _ _ = _ |- _ => apply typ_inv in H end; unfold member_sep; cbn [m_with m_comment].
  - eexists. split; [eexists; split; eassumption|]. build.
  - match goal with H : clause _ _ = _ |- _ => apply clause_parser_inv in H end.
    eexists. split; [eexists; split; eassumption|]. build.
Qed.
Lemma member_fin_inv : forall s m r, KeyTypePairLast true s = Some (m, r) -> member_fin m s r.
Proof.
  unfold KeyTypePairLast. intros s m r H. inv.
  match goal with H : typ _ _ = _ |- _ => apply typ_inv in H end; unfold member_fin; cbn [m_with m_comment].
  match goal with H : opt _ _ _ = Some _ |- _ => apply opt_cases in H as [(w & -> & O) | (-> & -> & _)] end.
  - apply clause_parser_inv in O. eexists. split; [eexists; split; eassumption|]. build.
  - eexists. split; [eexists; split; eassumption|]. assumption.
Qed.
Lemma shr_member : forall m, shrinks (member_at m).
Proof. intros m. unfold member_at. auto with shr. Qed.
#[global] Hint Resolve shr_member : shr.
Lemma shr_member_sep : forall m, shrinks (member_sep m).
Proof. intros m. unfold member_sep. destruct (m_with m); auto 8 with shr. Qed.
Lemma member_strict : forall m s r, member_at m s r -> (String.length r < String.length s)%nat.
Proof. intros m s r H. refine (seq_strict _ _ _ _ _ _ H); [|apply shr_type]. intros s3 r3; apply lower_case_len. Qed.
Lemma member_sep_strict : forall m s r, member_sep m s r -> (String.length r < String.length s)%nat.
Proof.
  intros m s r H. refine (seq_strict _ _ _ _ _ _ H); [apply member_strict|]. destruct (m_with m); auto 8 with shr.
Qed.
Lemma member_nb : forall m s r, member_at m s r -> exists c, nb s = Some c /\ is_lower c = true.
Proof. intros m s r (x & H & _). eapply lower_case_nb, H. Qed.

Definition closes (r : string) : Prop := nb r = Some "}"%char.
Lemma word_follow : forall c t s r, is_upper c = false -> c <> "("%char -> word (String c t) s r -> follow s.
Proof. exact word_calm. Qed.

Lemma member_sep_intro : forall m s r c, nb r = Some c -> is_lower c = true -> member_sep m s r ->
  KeyTypePairNotLast true s = Some (m, r).
Proof.
  intros [k t cm w] s r c NB LO (m1 & (m0 & K & T) & H). cbn [m_key m_type m_comment m_with] in *.
  unfold KeyTypePairNotLast. destruct w as [w|].
  - destruct H as (m2 & C & m3 & W & E).
    assert (NB2 := clause_nb _ _ _ W).
    assert (TY : typ true m0 = Some (t, m1)).
    { apply typ_intro; [|exact T]. eapply comment_opt_follow; [exact C|]. eapply clause_calm, W. }
    apply orelse_r.
    + eapply andthen_next; [apply lower_case_intro; eassumption|]. eapply andthen_next; [exact TY|].
      apply andthen_fail. destruct (comment_opt_nb _ _ _ C) as [Q|Q]; rewrite ?NB2 in Q;
        (eapply lit_nb_fail; [exact Q|discriminate|reflexivity]).
    + words. eapply andthen_intro; [exact TY|]. eapply andthen_intro.
      { apply comment_opt_intro; [exact C|left; rewrite NB2; discriminate]. }
      eapply andthen_intro; [apply clause_parser_intro, W|]. words. reflexivity.
  - destruct H as (m2 & C & CM). apply orelse_l. words. eapply andthen_intro.
    { apply typ_intro; [|exact T]. eapply word_calm; [| |exact C]; [reflexivity|discriminate]. }
    words. eapply andthen_intro; [apply comment_opt_intro; [exact CM|left]|reflexivity].
    rewrite NB. intros E. injection E as ->. discriminate LO.
Qed.
Lemma closes_follow : forall s r, word "}" s r -> follow s.
Proof. intros s r H. eapply word_calm; [| |exact H]; [reflexivity|discriminate]. Qed.
Lemma member_fin_intro : forall m s r, closes r /\ follow r -> member_fin m s r ->
  KeyTypePairLast true s = Some (m, r) /\ KeyTypePairNotLast true s = None.
Proof.
  intros [k t cm w] s r [NB FO] (m1 & (m0 & K & T) & H). cbn [m_key m_type m_comment m_with] in *. unfold closes in NB.
  destruct w as [w|].
  - destruct H as (m2 & C & W).
    assert (NB2 := clause_nb _ _ _ W).
    assert (TY : typ true m0 = Some (t, m1)).
    { apply typ_intro; [|exact T]. eapply comment_opt_follow; [exact C|]. eapply clause_calm, W. }
    assert (CO : opt Asn1Comment true m1 = Some (cm, m2)).
    { apply comment_opt_intro; [exact C|left; rewrite NB2; discriminate]. }
    split.
    + unfold KeyTypePairLast. words. eapply andthen_intro; [exact TY|]. eapply andthen_intro; [exact CO|].
      eapply andthen_intro; [apply opt_some, clause_parser_intro, W|reflexivity].
    + unfold KeyTypePairNotLast. apply orelse_none; (eapply andthen_next; [apply lower_case_intro; eassumption|]);
        (eapply andthen_next; [exact TY|]).
      * apply andthen_fail. destruct (comment_opt_nb _ _ _ C) as [Q|Q]; rewrite ?NB2 in Q;
          (eapply lit_nb_fail; [exact Q|discriminate|reflexivity]).
      * eapply andthen_next; [exact CO|]. eapply andthen_next; [apply clause_parser_intro, W|].
        apply andthen_fail. eapply lit_nb_fail; [exact NB|discriminate|reflexivity].
  - assert (TY : typ true m0 = Some (t, m1)).
    { apply typ_intro; [|exact T]. eapply comment_opt_follow; [exact H|exact FO]. }
    assert (CO : opt Asn1Comment true m1 = Some (cm, r)).
    { apply comment_opt_intro; [exact H|left; rewrite NB; discriminate]. }
    assert (CL : clause true r = None) by (eapply clause_fail; [exact NB|discriminate]).
    split.
    + unfold KeyTypePairLast. words. eapply andthen_intro; [exact TY|]. eapply andthen_intro; [exact CO|].
      eapply andthen_intro; [apply opt_none, CL|reflexivity].
    + unfold KeyTypePairNotLast. apply orelse_none; (eapply andthen_next; [apply lower_case_intro; eassumption|]);
        (eapply andthen_next; [exact TY|]).
      * apply andthen_fail. eapply closing_not_comma; eassumption.
      * eapply andthen_next; [exact CO|]. apply andthen_fail, CL.
Qed.
Lemma members_intro : forall s l m r, members_at l s m -> word "}" m r ->
  exists l' x m', l = (l' ++ [x])%list /\ many KeyTypePairNotLast true s = Some (l', m')
    /\ KeyTypePairLast true m' = Some (x, m).
Proof.
  intros s l m r H E. apply members_chain in H.
  eapply (chain_intro member_sep member_fin _ _ (fun r => closes r /\ follow r) (String.length s));
    [..|exact H].
  - intros s' a r' P. apply member_sep_inv in P. eapply member_sep_strict, P.
  - apply shr_member_sep.
  - intros x s' r' (q & Q & _). eapply member_nb, Q.
  - intros x s' r' (q & Q & _). eapply member_nb, Q.
  - intros x s' r' c _. apply member_sep_intro.
  - intros x s' r' _. apply member_fin_intro.
  - lia.
  - split; [eapply word_nb; [reflexivity|exact E]|eapply closes_follow, E].
Qed.
Lemma members_first : forall l s r, members_at l s r -> exists c, nb s = Some c /\ is_lower c = true.
Proof. intros [|m l] s r H; [destruct H|]. destruct H as (q & H & _). eapply member_nb, H. Qed.

(** ** Enumeration items *)
Lemma enum_sep_inv : forall s e r, EnumeratedItemNotLast true s = Some (e, r) -> item_sep enum_item_at e_comment e s r.
Proof.
  unfold EnumeratedItemNotLast. intros s e r H. inv.
  match goal with H : opt _ _ _ = Some _ |- _ => apply opt_cases in H as [(z & -> & O) | (-> & -> & _)] end;
    unfold item_sep, enum_item_at; cbn [e_key e_written e_comment].
  - inv. eexists. split; [build|]. build.
  - eexists. split; [eexists; split; [eassumption|reflexivity]|]. build.
Qed.
Lemma enum_fin_inv : forall s e r, EnumeratedItemLast true s = Some (e, r) -> item_fin enum_item_at e_comment e s r.
Proof.
  unfold EnumeratedItemLast. intros s e r H. inv.
  match goal with H : opt _ _ _ = Some _ |- _ => apply opt_cases in H as [(z & -> & O) | (-> & -> & _)] end;
    unfold item_fin, enum_item_at; cbn [e_key e_written e_comment].
  - inv. eexists. split; [build|]. assumption.
  - eexists. split; [eexists; split; [eassumption|reflexivity]|]. assumption.
Qed.
Lemma shr_enum_item : forall e, shrinks (enum_item_at e).
Proof. intros e. unfold enum_item_at. destruct (e_written e); auto 8 with shr. Qed.
#[global] Hint Resolve shr_enum_item : shr.
Lemma enum_item_nb : forall e s r, enum_item_at e s r -> exists c, nb s = Some c /\ is_lower c = true.
Proof. intros e s r (m & H & _). eapply lower_case_nb, H. Qed.
Lemma enum_item_intro : forall k w cm s r c, enum_item_at (mkenum k w cm) s r -> nb r = Some c -> c <> "("%char ->
  exists m, NameLower true s = Some (k, m)
    /\ opt (lit "(" ;; z <- INT ;; lit ")" ;; ret z) true m = Some (w, r).
Proof.
  intros k w cm s r c (m & K & H) NB P. cbn [e_key e_written] in *. exists m.
  split; [apply lower_case_intro, K|]. destruct w as [z|].
  - destruct H as (m1 & H1 & m2 & H2 & H3). apply opt_some. words. reflexivity.
  - unfold nothing in H. subst m. apply opt_none, andthen_fail. eapply lit_nb_fail; [exact NB|exact P|reflexivity].
Qed.
Lemma enums_intro : forall s l m r, items enum_item_at e_comment l s m -> word "}" m r ->
  exists l' x m', l = (l' ++ [x])%list /\ many EnumeratedItemNotLast true s = Some (l', m')
    /\ EnumeratedItemLast true m' = Some (x, m).
Proof.
  intros s l m r H E. apply items_chain in H.
  eapply (chain_intro (item_sep enum_item_at e_comment) (item_fin enum_item_at e_comment) _ _ closes (String.length s));
    [..|exact H].
  - intros s' a r' P. apply enum_sep_inv in P. refine (seq_strict _ _ _ _ _ _ P); [|auto with shr].
    intros s2 r2 Q. refine (seq_strict _ _ _ _ _ _ Q); [intros s3 r3; apply lower_case_len|]. destruct (e_written a); auto 8 with shr.
  - intros x. unfold item_sep. auto 8 with shr.
  - intros x s' r' (q & Q & _). eapply enum_item_nb, Q.
  - intros x s' r' (q & Q & _). eapply enum_item_nb, Q.
  - intros [k w cm] s' r' c _ NB LO (q & I & q2 & W & C). cbn [e_comment] in C.
    destruct (enum_item_intro _ _ _ _ _ "," I) as (q0 & A & B); [eapply word_nb; [reflexivity|exact W]|discriminate|].
    unfold EnumeratedItemNotLast. eapply andthen_intro; [exact A|]. eapply andthen_intro; [exact B|]. words.
    eapply andthen_intro; [apply comment_opt_intro; [exact C|left]|reflexivity].
    rewrite NB. intros Z. injection Z as ->. discriminate LO.
  - intros [k w cm] s' r' _ CL (q & I & C). cbn [e_comment] in C. unfold closes in CL.
    assert (P : exists c, nb q = Some c /\ c <> "("%char).
    { destruct (comment_opt_nb _ _ _ C) as [Q|Q]; rewrite ?CL in Q; eexists; (split; [exact Q|discriminate]). }
    destruct P as (c & P1 & P2). destruct (enum_item_intro _ _ _ _ _ _ I P1 P2) as (q0 & A & B). split.
    + unfold EnumeratedItemLast. eapply andthen_intro; [exact A|]. eapply andthen_intro; [exact B|].
      eapply andthen_intro; [apply comment_opt_intro; [exact C|left]|reflexivity]. rewrite CL. discriminate.
    + unfold EnumeratedItemNotLast. eapply andthen_next; [exact A|]. eapply andthen_next; [exact B|].
      apply andthen_fail. eapply closing_not_comma; eassumption.
  - lia.
  - eapply word_nb; [reflexivity|exact E].
Qed.
Lemma enums_first : forall l s r, items enum_item_at e_comment l s r -> exists c, nb s = Some c /\ is_lower c = true.
Proof.
  intros [|m l] s r H; [destruct H|]. cbn [items] in H. destruct l; destruct H as (q & H & _); eapply enum_item_nb, H.
Qed.
