(** * Proofs: the rules have a result on every text

    Ford's argument for parsing expression grammars: no rule reaches itself
    without reading a character (the rules have ranks), and what is repeated
    reads a character. *)
From Coq Require Import Lia.
From Verif Require Import Base PyNum PyStr Ast Grammar Regex Peg GrammarText Spec_Regex Spec_Utf8 Spec_Peg Peg_proofs GrammarText_proofs.
Open Scope string_scope.

(** ** What is read *)
Fixpoint rnull (r : regex) : bool :=
  match r with
  | Class _ => false
  | Then a b => rnull a && rnull b
  | Or a b => rnull a || rnull b
  | Star _ | Maybe _ | LineEnd | Edge _ | Behind _ | NotAhead _ => true
  end.
Definition len (x : state) : nat := List.length (snd x).

Lemma repeat_len : forall f n x y, In y (repeat_match f n x) -> (len y <= len x)%nat.
Proof.
  intros f n. induction n as [|n IH]; intros x y H; cbn in H.
  - destruct H as [<-|[]]. lia.
  - apply in_app_or in H. destruct H as [H|[<-|[]]]; [|lia].
    apply in_flat_map in H. destruct H as (z & A & B). apply filter_In in A. destruct A as [_ A].
    apply Nat.ltb_lt in A. apply IH in B. unfold len in *. lia.
Qed.
Lemma matches_len : forall r x y, In y (matches r x) -> (len y <= len x /\ (rnull r = false -> len y < len x))%nat.
Proof.
  intros r. induction r; intros x y H; cbn [matches rnull] in *.
  - unfold len. destruct (snd x) as [|c s] eqn:E; [easy|]. destruct (f c); [|easy].
    destruct H as [<-|[]]. cbn [snd List.length]. lia.
  - apply in_flat_map in H. destruct H as (z & A & B). apply IHr1 in A. apply IHr2 in B.
    destruct A as [A A'], B as [B B']. split; [lia|]. intros Q. apply andb_false_iff in Q.
    destruct Q as [Q|Q]; [specialize (A' Q)|specialize (B' Q)]; lia.
  - apply in_app_or in H. rewrite orb_false_iff. destruct H as [H|H]; [apply IHr1 in H|apply IHr2 in H]; destruct H; split; tauto.
  - split; [|discriminate]. now apply repeat_len in H.
  - split; [|discriminate]. apply in_app_or in H. destruct H as [H|[<-|[]]]; [apply IHr in H; tauto|lia].
  - split; [|discriminate]. destruct (snd x); [|destruct (n =? 10)%N]; cbn in H; [| |easy]; destruct H as [<-|[]]; lia.
  - split; [|discriminate]. destruct (eqb _ _); cbn in H; [easy|]; destruct H as [<-|[]]; lia.
  - split; [|discriminate]. destruct (is_some _ _); cbn in H; [|easy]; destruct H as [<-|[]]; lia.
  - split; [|discriminate]. destruct (is_some _ _); cbn in H; [easy|]; destruct H as [<-|[]]; lia.
Qed.

Lemma skip_len : forall s p, (len (skip_blank p s) <= List.length s)%nat.
Proof. intros s. induction s as [|c s IH]; intros p; cbn; [unfold len; cbn; lia|]. destruct (blank c); [|cbn; lia]. specialize (IH (Some c)). lia. Qed.
Lemma start_len : forall ws x, (len (start ws x) <= len x)%nat.
Proof. intros [] x; cbn; [apply skip_len|lia]. Qed.
Lemma strip_len : forall t x y, strip t x = Some y -> (len y + List.length t = len x)%nat.
Proof.
  intros t. induction t as [|c t IH]; intros x y H; cbn in H.
  - injection H as <-. cbn. lia.
  - unfold len in *. destruct (snd x) as [|d s]; [discriminate|]. destruct (c =? d)%N; [|discriminate].
    apply IH in H. cbn in *. lia.
Qed.

Section Grammar.
Variable l : list (string * rule).
Variable null : string -> bool.
Variable rank : string -> nat.
Variable top : nat.
Fixpoint pnull (a : peg) : bool :=
  match a with
  | Lit t => String.eqb t ""
  | Rx r => rnull r
  | Cat a b => pnull a && pnull b
  | Choose a b => pnull a || pnull b
  | Rep _ | Optional _ | End => true
  | Rule n => null n
  | Attr _ a => pnull a
  end.
(** The rules [a] can reach without reading have a rank below [k]. *)
Fixpoint below (k : nat) (a : peg) : bool :=
  match a with
  | Lit _ | Rx _ | End => true
  | Cat a b => below k a && below (if pnull a then k else top) b
  | Choose a b => below k a && below k b
  | Rep a => below k a && negb (pnull a)
  | Optional a | Attr _ a => below k a
  | Rule n => match find_rule l n with Some _ => (rank n <? k)%nat | None => false end
  end.
Definition ranked : Prop := forall n r, find_rule l n = Some r ->
  (pnull (r_body r) = true -> null n = true) /\ below (rank n) (r_body r) = true.

Hypothesis R : ranked.

Lemma reads : forall a ws x r, Parses (find_rule l) a ws x r -> forall o y, r = Some (o, y) ->
  (len y <= len x /\ (pnull a = false -> len y < len x))%nat.
Proof.
  intros a ws x r H. induction H; intros oo yy Q; try discriminate; cbn [pnull] in *.
  - destruct (strip _ _) as [z|] eqn:E; [|discriminate]. cbn in Q. injection Q as <- <-.
    apply strip_len in E. pose proof (start_len ws x). split; [lia|]. intros N.
    destruct t; [discriminate|]. cbn in E. lia.
  - destruct (matches r (start ws x)) as [|z m] eqn:E; [discriminate|]. cbn in Q. injection Q as <- <-.
    assert (I : In z (matches r (start ws x))) by (rewrite E; now left).
    apply matches_len in I. pose proof (start_len ws x). split; [lia|]. intros N. destruct I as [_ I]. specialize (I N). lia.
  - injection Q as <- <-. specialize (IHParses1 _ _ eq_refl). specialize (IHParses2 _ _ eq_refl).
    split; [lia|]. intros N. apply andb_false_iff in N. destruct IHParses1 as [A A'], IHParses2 as [B B'].
    destruct N as [N|N]; [specialize (A' N)|specialize (B' N)]; lia.
  - specialize (IHParses _ _ Q). rewrite orb_false_iff. tauto.
  - specialize (IHParses2 _ _ Q). rewrite orb_false_iff. tauto.
  - injection Q as <- <-. split; [lia|discriminate].
  - injection Q as <- <-. specialize (IHParses1 _ _ eq_refl). specialize (IHParses2 _ _ eq_refl). split; [lia|discriminate].
  - specialize (IHParses _ _ Q). split; [tauto|discriminate].
  - injection Q as <- <-. split; [lia|discriminate].
  - injection Q as <- <-. specialize (IHParses _ _ eq_refl). destruct (R _ _ H) as [N _]. split; [tauto|].
    intros F. apply IHParses. destruct (pnull (r_body r)); [|reflexivity]. rewrite N in F by reflexivity. discriminate.
  - injection Q as <- <-. now apply (IHParses _ _ eq_refl).
  - split; [|discriminate]. pose proof (start_len ws x). destruct (snd (start ws x)) eqn:E; [|discriminate]. injection Q as <- <-. assumption.
Qed.

Lemma rep_some : forall a ws x, ~ Parses (find_rule l) (Rep a) ws x None.
Proof. intros a ws x H. inversion H. Qed.

Lemma total_step : forall n k,
  (forall m, (m < n)%nat -> forall k a ws x, below k a = true -> len x = m -> exists r, Parses (find_rule l) a ws x r) ->
  (forall j, (j < k)%nat -> forall a ws x, below j a = true -> len x = n -> exists r, Parses (find_rule l) a ws x r) ->
  forall a ws x, below k a = true -> len x = n -> exists r, Parses (find_rule l) a ws x r.
Proof.
  intros n k Hn Hk a. induction a; intros ws x B L; cbn [below] in B.
  - eexists. constructor.
  - eexists. constructor.
  - apply andb_true_iff in B. destruct B as [B1 B2].
    destruct (IHa1 ws x B1 L) as ([[o y]|] & P); [|eexists; eapply P_cat_no1; eassumption].
    assert (Y : exists r, Parses (find_rule l) a2 ws y r).
    { pose proof (reads _ _ _ _ P _ _ eq_refl) as [Q Q'].
      destruct (Nat.eq_dec (len y) n) as [E|E].
      - apply IHa2; [|assumption]. destruct (pnull a1); [assumption|]. specialize (Q' eq_refl). lia.
      - eapply (Hn (len y)); [lia|eassumption|reflexivity]. }
    destruct Y as ([[o' z]|] & P'); eexists; [eapply P_cat|eapply P_cat_no2]; eassumption.
  - apply andb_true_iff in B. destruct B as [B1 B2].
    destruct (IHa1 ws x B1 L) as ([o|] & P); [eexists; apply P_first; eassumption|].
    destruct (IHa2 ws x B2 L) as (r & P'). exists r. now apply P_second.
  - pose proof B as B0. apply andb_true_iff in B. destruct B as [B1 B2].
    destruct (IHa ws x B1 L) as ([[o y]|] & P); [|eexists; apply P_stop; assumption].
    pose proof (reads _ _ _ _ P _ _ eq_refl) as [Q Q']. destruct (pnull a) eqn:E; [discriminate|]. specialize (Q' eq_refl).
    destruct (Hn (len y) ltac:(lia) k (Rep a) ws y) as ([[o' z]|] & P'); [cbn [below]; now rewrite E|reflexivity| |now apply rep_some in P'].
    eexists. eapply P_more; eassumption.
  - destruct (IHa ws x B L) as ([o|] & P); eexists; [apply P_there|apply P_absent]; eassumption.
  - destruct (find_rule l n0) as [r|] eqn:E; [|discriminate]. apply Nat.ltb_lt in B.
    destruct (R _ _ E) as [_ C].
    destruct (Hk _ B (r_body r) (if r_noskipws r then false else ws) x C L) as ([[o y]|] & P);
      eexists; [eapply P_rule|eapply P_rule_no]; eassumption.
  - destruct (IHa ws x B L) as ([[o y]|] & P); eexists; [apply P_attr|apply P_attr_no]; eassumption.
  - eexists. constructor.
Qed.
Theorem total : forall n k a ws x, below k a = true -> len x = n -> exists r, Parses (find_rule l) a ws x r.
Proof.
  intros n. induction n as [n Hn] using lt_wf_ind. intros k. induction k as [k Hk] using lt_wf_ind.
  apply total_step; [exact Hn|exact Hk].
Qed.
End Grammar.

(** ** The rules of grammar.py *)
Fixpoint rank_in (l : list (string * nat)) (n : string) : nat :=
  match l with
  | [] => O
  | (m, k) :: r => if String.eqb m n then k else rank_in r n
  end.
Definition ranks : string -> nat := rank_in
  [("ImportItem", 1); ("Definitions", 2); ("Enumerated", 1); ("EnumeratedItemNotLast", 1); ("EnumeratedItemLast", 1);
   ("KeyTypePairNotLast", 1); ("KeyTypePairLast", 1); ("ComponentsItemNotLast", 1); ("ComponentsItemLast", 1);
   ("Choice", 1); ("Sequence", 1); ("SimpleDefinition", 1)]%nat.

Section Unicode.
Variables digit word : N -> bool.
Lemma ranked_grammar : ranked (grammar digit word) (fun _ => false) ranks 9.
Proof.
  intros n r H. unfold grammar in H. cbn [find_rule] in H.
  repeat match type of H with
  | (if String.eqb ?m n then _ else _) = _ => destruct (String.eqb m n) eqn:E;
      [apply String.eqb_eq in E; subst n; injection H as <-; split; [cbn; discriminate|reflexivity]|clear E]
  end.
  discriminate.
Qed.
Lemma parse_total : forall text, exists o, parse_result digit word text o.
Proof.
  intros text. destruct (total (grammar digit word) (fun _ => false) ranks 9 ranked_grammar (List.length text) 9
    (Attr "module" (Rule "Asn1Module") # End) true (None, text) eq_refl eq_refl) as (r & P).
  eexists. exists r. split; [exact P|reflexivity].
Qed.
End Unicode.

(** ** The text of the file *)
Lemma result_same : psame (Attr "module" (Rule "Asn1Module") # End) (Attr "module" (Rule "Asn1Module") # End).
Proof. repeat constructor. Qed.
Lemma Forall2_turn : forall A (P : A -> A -> Prop) l l', (forall x y, P x y -> P y x) -> Forall2 P l l' -> Forall2 P l' l.
Proof. intros A P l l' S H. induction H; constructor; auto. Qed.
Lemma written_iff : forall digit word t o, written_result digit word t o <-> parse_result digit word t o.
Proof.
  intros digit word t o. split.
  - intros (l & f & r & W & E & x & P & Q). rewrite written in W.
    assert (N : s_name f = "Asn1Module") by (assert (W' : read_rules_text = f :: r) by congruence; now injection W' as <- _).
    assert (L : l = read_rules_text) by congruence. rewrite L, N in P.
    exists x. split; [|exact Q]. exact (parses_same _ _ (rules_same digit word) _ _ _ _ P _ result_same).
  - intros (x & P & Q). exists read_rules_text. eexists. eexists. split; [exact written|]. split; [reflexivity|].
    exists x. split; [|exact Q].
    exact (parses_same _ _ (Forall2_turn _ _ _ _ same_rule_sym (rules_same digit word)) _ _ _ _ P _ result_same).
Qed.
Lemma written_function : forall digit word t, exists! o, written_result digit word t o.
Proof.
  intros digit word t. destruct (parse_total digit word t) as [o O]. exists o. split; [now apply written_iff|].
  intros o' H. apply written_iff in H. exact (parse_unique _ _ _ _ _ O H).
Qed.
Lemma written_module : forall digit word t, standard digit word -> unicode t -> (forall c, In c t -> digit c = true -> (c < 128)%N) ->
  match read_module (utf8 t) with
  | Some m => exists v, written_result digit word t (Some v) /\ module_value m v
  | None => written_result digit word t None
  end.
Proof.
  intros digit word t S U D. pose proof (texts_agree digit word t S U D) as H. destruct (read_module (utf8 t)) as [m|].
  - destruct H as (v & V & M). exists v. split; [now apply written_iff|exact M].
  - apply written_iff. destruct (parse_total digit word t) as [[v|] O]; [now apply H in O|exact O].
Qed.
