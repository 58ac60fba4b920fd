(** * Proofs: the parser of the model is the grammar *)
From Coq Require Import ZifyBool ZifyN ZifyNat.
From Verif Require Import Base PyNum PyStr PyFloat Ast Grammar Regex Peg Spec_Num Spec_Ieee Spec_Grammar Spec_Syntax Spec_Floats Spec_Regex Spec_Utf8 Spec_Peg
  Str_proofs Lex_proofs Token_proofs Floats_proofs Utf8_proofs Regex_proofs.
Open Scope string_scope.

(** ** One result only *)
Lemma parses_det : forall rules e ws x r, Parses rules e ws x r -> forall r', Parses rules e ws x r' -> r = r'.
Proof.
  intros rules e ws x r H. induction H; intros r' H'; inversion H'; subst;
    repeat match goal with
    | E : ?a = Some ?b, F : ?a = Some ?c |- _ => rewrite E in F; injection F as F; subst
    | IH : (forall r', Parses _ ?e ?w ?x r' -> ?v = r'), P : Parses _ ?e ?w ?x ?u |- _ =>
        lazymatch goal with
        | _ : v = u |- _ => fail
        | _ => let F := fresh in pose proof (IH _ P) as F; try discriminate F; try (injection F as F; subst); subst
        end
    end; try congruence; try reflexivity; try discriminate.
Qed.

(** ** Agreement *)
Section Agree.
Variables digit word : N -> bool.
Hypothesis STD : standard digit word.
Notation rls := (rules digit word).

Definition agrees {A} (e : peg) (m : parser A) (ws : bool) (k : nat) (R : output -> A -> Prop) (s : string) : Prop :=
  ascii_text s = true -> forall p,
  match m ws s with
  | Some (a, r) => (exists o q, Parses rls e ws (p, codes s) (Some (o, (q, codes r))) /\ R o a)
                   /\ ascii_text r = true /\ (String.length r + k <= String.length s)%nat
  | None => Parses rls e ws (p, codes s) None
  end.

Lemma ag_weaken : forall A e (m : parser A) ws k k' (R R' : output -> A -> Prop) s, agrees e m ws k' R' s -> (k <= k')%nat -> (forall o a, R' o a -> R o a) ->
  agrees e m ws k R s.
Proof.
  intros A e m ws k k' R R' s H K I AS p. specialize (H AS p). destruct (m ws s) as [[a r]|]; [|exact H].
  destruct H as ((o & q & P & Q) & AR & L). split; [exists o, q; auto|]. split; [exact AR|lia].
Qed.
Lemma ag_cat : forall A B e1 e2 (m1 : parser A) (m2 : A -> parser B) ws k1 k2 R1 (R : output -> B -> Prop) s,
  agrees e1 m1 ws k1 R1 s ->
  (forall o1 a r, R1 o1 a -> (String.length r + k1 <= String.length s)%nat -> agrees e2 (m2 a) ws k2 (fun o2 b => R (both o1 o2) b) r) ->
  agrees (e1 # e2) (andthen m1 m2) ws (k1 + k2) R s.
Proof.
  intros A B e1 e2 m1 m2 ws k1 k2 R1 R s H1 H2 AS p. specialize (H1 AS p). unfold andthen. destruct (m1 ws s) as [[a r]|].
  - destruct H1 as ((o1 & q & P1 & Q1) & AR & L1). specialize (H2 o1 a r Q1 L1 AR q). destruct (m2 a ws r) as [[b t]|].
    + destruct H2 as ((o2 & q' & P2 & Q2) & AT & L2). split; [|split; [exact AT|lia]]. exists (both o1 o2), q'. split; [|exact Q2].
      eapply P_cat; eassumption.
    + eapply P_cat_no2; eassumption.
  - apply P_cat_no1, H1.
Qed.
Lemma ag_ret : forall A B e (m : parser A) (g : A -> B) ws k R1 (R : output -> B -> Prop) s,
  agrees e m ws k R1 s -> (forall o a, R1 o a -> R o (g a)) -> agrees e (x <- m ;; ret (g x)) ws k R s.
Proof.
  intros A B e m g ws k R1 R s H I AS p. specialize (H AS p). unfold andthen, ret. destruct (m ws s) as [[a r]|]; [|exact H].
  destruct H as ((o & q & P & Q) & AR & L). split; [exists o, q; auto|]. auto.
Qed.
Lemma ag_or : forall A e1 e2 (m1 m2 : parser A) ws k1 k2 R s, agrees e1 m1 ws k1 R s -> agrees e2 m2 ws k2 R s ->
  agrees (e1 // e2) (orelse m1 m2) ws (Nat.min k1 k2) R s.
Proof.
  intros A e1 e2 m1 m2 ws k1 k2 R s H1 H2 AS p. specialize (H1 AS p). specialize (H2 AS p). unfold orelse. destruct (m1 ws s) as [[a r]|].
  - destruct H1 as ((o1 & q & P1 & Q1) & AR & L1). split; [exists o1, q; split; [apply P_first, P1|exact Q1]|]. split; [exact AR|lia].
  - destruct (m2 ws s) as [[a r]|]; [|apply P_second; assumption].
    destruct H2 as ((o2 & q & P2 & Q2) & AR & L2). split; [exists o2, q; split; [apply P_second; assumption|exact Q2]|]. split; [exact AR|lia].
Qed.
Lemma ag_opt : forall A e (m : parser A) ws k R1 s, agrees e m ws k R1 s ->
  agrees (Optional e) (opt m) ws 0 (fun o x => match x with Some a => R1 o a | None => fst o = [] end) s.
Proof.
  intros A e m ws k R1 s H AS p. specialize (H AS p). unfold opt. destruct (m ws s) as [[a r]|].
  - destruct H as ((o & q & P & Q) & AR & L). split; [exists o, q; split; [apply P_there, P|exact Q]|]. split; [exact AR|lia].
  - split; [|split; [exact AS|lia]]. exists ([], no_value), p. split; [apply P_absent, H|reflexivity].
Qed.
Lemma ag_many_n : forall A e (m : parser A) ws k R1 n s, (String.length s <= n)%nat ->
  (forall r, (String.length r <= String.length s)%nat -> agrees e m ws (S k) R1 r) ->
  agrees (Rep e) (many_n n m) ws 0 (fun o l => exists os, Forall2 R1 os l /\ fst o = concat (map fst os)) s.
Proof.
  intros A e m ws k R1 n. induction n as [|n IH]; intros s L H AS p.
  - destruct s; [|simpl in L; lia]. cbn [many_n]. split; [|split; [exact AS|lia]]. exists ([], no_value), p.
    split; [|exists []; split; [constructor|reflexivity]]. apply P_stop. specialize (H "" (Nat.le_refl _) AS p).
    destruct (m ws "") as [[a r]|]; [|exact H]. destruct H as (_ & _ & H). simpl in H. lia.
  - cbn [many_n]. pose proof (H s (Nat.le_refl _) AS p) as H1. destruct (m ws s) as [[a r]|].
    + destruct H1 as ((o & q & P & Q) & AR & L1). assert (H2 := IH r ltac:(lia) (fun t T => H t ltac:(lia)) AR q).
      destruct (many_n n m ws r) as [[l t]|].
      * destruct H2 as ((o' & q' & P' & os & F & E) & AT & L2). split; [|split; [exact AT|lia]]. exists (both o o'), q'. split; [eapply P_more; eassumption|].
        exists (o :: os). split; [constructor; assumption|]. unfold both. cbn [fst map concat]. rewrite E. reflexivity.
      * exfalso. inversion H2.
    + split; [|split; [exact AS|lia]]. exists ([], no_value), p. split; [apply P_stop, H1|]. exists []. split; [constructor|reflexivity].
Qed.
Lemma ag_many : forall A e (m : parser A) ws k R1 s,
  (forall r, (String.length r <= String.length s)%nat -> agrees e m ws (S k) R1 r) ->
  agrees (Rep e) (many m) ws 0 (fun o l => exists os, Forall2 R1 os l /\ fst o = concat (map fst os)) s.
Proof. intros A e m ws k R1 s H. exact (ag_many_n A e m ws k R1 (String.length s) s (Nat.le_refl _) H). Qed.
Lemma ag_attr : forall A n e (m : parser A) ws k (V : A -> value -> Prop) s, agrees e m ws k (fun o a => V a (snd o)) s ->
  agrees (Attr n e) m ws k (fun o a => exists v, fst o = [(n, v)] /\ V a v) s.
Proof.
  intros A n e m ws k V s H AS p. specialize (H AS p). destruct (m ws s) as [[a r]|]; [|apply P_attr_no, H].
  destruct H as ((o & q & P & Q) & AR & L). split; [|auto]. exists ([(n, snd o)], snd o), q. split; [apply P_attr, P|]. exists (snd o). auto.
Qed.
Lemma ag_rule : forall A n r (m : parser A) ws k R s, rls n = Some r -> r_noskipws r = false ->
  agrees (r_body r) m ws k (fun o a => R ([], if r_object r then Object n (fst o) else snd o) a) s -> agrees (Rule n) m ws k R s.
Proof.
  intros A n r m ws k R s E W H AS p. specialize (H AS p). destruct (m ws s) as [[a t]|].
  - destruct H as ((o & q & P & Q) & AR & L). split; [|auto]. eexists _, q. split; [eapply P_rule; [exact E|rewrite W; exact P]|exact Q].
  - eapply P_rule_no; [exact E|]. rewrite W. exact H.
Qed.
Lemma ag_rule_no : forall A n r (m : parser A) ws k R s, rls n = Some r -> r_noskipws r = true ->
  agrees (r_body r) m false k (fun o a => R ([], if r_object r then Object n (fst o) else snd o) a) s -> agrees (Rule n) (noskipws m) ws k R s.
Proof.
  intros A n r m ws k R s E W H AS p. specialize (H AS p). unfold noskipws. destruct (m false s) as [[a t]|].
  - destruct H as ((o & q & P & Q) & AR & L). split; [|auto]. eexists _, q. split; [eapply P_rule; [exact E|rewrite W; exact P]|exact Q].
  - eapply P_rule_no; [exact E|]. rewrite W. exact H.
Qed.
Lemma ag_assoc : forall A a b c (m : parser A) ws k (R : output -> A -> Prop) s, (forall o o' x, fst o = fst o' -> R o x -> R o' x) ->
  agrees (a # b # c) m ws k R s -> agrees ((a # b) # c) m ws k R s.
Proof.
  intros A a b c m ws k R s I H AS p. specialize (H AS p). destruct (m ws s) as [[x r]|].
  - destruct H as ((o & q & P & Q) & AR & L). split; [|auto]. inversion P as [| |? ? ? ? o1 y o2 z P1 P2| | | | | | | | | | | | |]; subst.
    inversion P2 as [| |? ? ? ? o3 y' o4 z' P3 P4| | | | | | | | | | | | |]; subst.
    eexists (both (both o1 o3) o4), q. split; [eapply P_cat; [eapply P_cat; eassumption|eassumption]|].
    revert Q. apply I. unfold both. cbn [fst]. apply app_assoc.
  - inversion H as [| | |? ? ? ? P1|? ? ? ? o1 y P1 P2| | | | | | | | | | |]; subst.
    + apply P_cat_no1, P_cat_no1, P1.
    + inversion P2 as [| | |? ? ? ? P3|? ? ? ? o3 y' P3 P4| | | | | | | | | | |]; subst.
      * apply P_cat_no1. eapply P_cat_no2; eassumption.
      * eapply P_cat_no2; [eapply P_cat; eassumption|exact P4].
Qed.

(** ** Tokens *)
Lemma blank_ok : forall c, blank (N_of_ascii c) = is_blank c.
Proof. intros [[] [] [] [] [] [] [] []]; reflexivity. Qed.
Lemma start_ok : forall ws p s, exists q, start ws (p, codes s) = (q, codes (base ws s)).
Proof.
  intros [|] p s; [|exists p; reflexivity]. unfold start, base. cbn [fst snd]. revert p. induction s as [|c s IH]; intros p; [exists p; reflexivity|].
  rewrite codes_cons. cbn [skip_blank skip_blanks]. rewrite blank_ok. destruct (is_blank c); [apply IH|]. exists p. reflexivity.
Qed.
Lemma base_ascii : forall ws s, ascii_text s = true -> ascii_text (base ws s) = true.
Proof.
  intros [|] s H; [|exact H]. unfold base. destruct (skip_blanks_split s) as (b & _ & E & _). rewrite E, ascii_app in H. apply andb_true_iff in H as [_ H]. exact H.
Qed.
Lemma base_length : forall ws s, (String.length (base ws s) <= String.length s)%nat.
Proof. intros [|] s; [apply skip_blanks_len|apply Nat.le_refl]. Qed.
Lemma strip_ok : forall t p s, match drop_prefix t s with
  | Some r => exists q, strip (codes t) (p, codes s) = Some (q, codes r)
  | None => strip (codes t) (p, codes s) = None
  end.
Proof.
  induction t as [|c t IH]; intros p s; cbn [drop_prefix]; [exists p; reflexivity|]. destruct s as [|d s]; [reflexivity|].
  rewrite !codes_cons. cbn [strip snd]. replace (N_of_ascii c =? N_of_ascii d)%N with (Ascii.eqb c d).
  - destruct (Ascii.eqb c d); [apply IH|reflexivity].
  - destruct (Ascii.eqb_spec c d) as [->|NE]; [symmetry; apply N.eqb_refl|]. symmetry. apply N.eqb_neq. intros E. apply NE.
    rewrite <- (ascii_N_embedding c), <- (ascii_N_embedding d), E. reflexivity.
Qed.
Lemma ag_lit : forall t ws s, agrees (Lit t) (lit t) ws (String.length t) (fun o _ => o = ([], text_value t)) s.
Proof.
  intros t ws s AS p. unfold lit, token. fold (base ws s). destruct (start_ok ws p s) as (q & E).
  pose proof (strip_ok t q (base ws s)) as H. pose proof (P_lit rls t ws (p, codes s)) as P. rewrite E in P.
  destruct (drop_prefix t (base ws s)) as [r|] eqn:D.
  - destruct H as (q' & H). rewrite H in P. cbn [option_map] in P. apply drop_prefix_some in D. split; [exists ([], text_value t), q'; split; [exact P|reflexivity]|].
    pose proof (base_ascii ws s AS) as AB. pose proof (base_length ws s) as LB. rewrite D, ascii_app in AB. rewrite D, string_length_app in LB.
    apply andb_true_iff in AB as [_ AB]. split; [exact AB|lia].
  - rewrite H in P. exact P.
Qed.
Lemma ag_rx : forall A re (m : parser A) ws (V : A -> value -> Prop) s,
  (forall u, m ws u = m false (base ws u)) ->
  (forall p u, ascii_text u = true -> match_here re p (codes u) = option_map (fun x => codes (snd x)) (m false u)) ->
  (forall u a r, m false u = Some (a, r) -> exists t, u = t ++ r /\ t <> "" /\ V a (text_value t)) ->
  agrees (Rx re) m ws 1 (fun o a => V a (snd o)) s.
Proof.
  intros A re m ws V s B M S AS p. rewrite B. destruct (start_ok ws p s) as (q & E). specialize (M q (base ws s) (base_ascii ws s AS)).
  pose proof (P_rx rls re ws (p, codes s)) as P. rewrite E in P. unfold match_here in M.
  destruct (hd_error (matches re (q, codes (base ws s)))) as [[q' y]|] eqn:H; cbn [option_map snd] in M, P.
  - destruct (m false (base ws s)) as [[a r]|] eqn:F; [|discriminate]. injection M as ->. destruct (S _ _ _ F) as (t & T & NE & VT).
    pose proof (base_ascii ws s AS) as AB. pose proof (base_length ws s) as LB. rewrite T, ascii_app in AB. rewrite T, string_length_app in LB.
    apply andb_true_iff in AB as [_ AB]. split; [|split; [exact AB|]].
    + eexists _, q'. split; [exact P|]. cbn [snd]. unfold between. cbn [snd]. rewrite T, codes_app, app_length.
      replace (List.length (codes t) + List.length (codes r) - List.length (codes r))%nat with (List.length (codes t) + 0)%nat by lia.
      rewrite firstn_app_2. cbn [firstn]. rewrite app_nil_r. exact VT.
    + destruct t; [congruence|]. cbn [String.length] in LB. lia.
  - destruct (m false (base ws s)) as [[a r]|]; [discriminate|exact P].
Qed.
Definition is_text (t : string) (v : value) : Prop := v = text_value t.
Lemma name_split : forall f u a r, name_with f false u = Some (a, r) -> exists t, u = t ++ r /\ t <> "" /\ is_text a (text_value t).
Proof.
  intros f u a r H. unfold name_with, token in H. destruct u as [|c u]; [discriminate|]. destruct (f c); [|discriminate].
  destruct (name_rest u) as [x y] eqn:E. injection H as <- <-. apply name_rest_inv in E as (_ & -> & _). exists (String c x).
  split; [reflexivity|]. split; [discriminate|reflexivity].
Qed.
Lemma ag_name : forall n f g ws s, rls n = Some (token_rule (name_regex digit f)) -> (forall c, f (N_of_ascii c) = g c) ->
  agrees (Rule n) (name_with g) ws 1 (fun o a => is_text a (snd o)) s.
Proof.
  intros n f g ws s E F. eapply ag_rule; [exact E|reflexivity|]. unfold token_rule. cbn [r_body r_object fst snd].
  apply ag_rx; [reflexivity| |apply name_split]. intros p u U. exact (name_regex_ok digit word STD f g p u F U).
Qed.
Lemma ag_lower : forall ws s, agrees (Rule "NameLower") NameLower ws 1 (fun o a => is_text a (snd o)) s.
Proof. intros ws s. apply (ag_name "NameLower" az is_lower ws s eq_refl az_ok). Qed.
Lemma ag_capital : forall ws s, agrees (Rule "NameCapital") NameCapital ws 1 (fun o a => is_text a (snd o)) s.
Proof. intros ws s. apply (ag_name "NameCapital" AZ is_upper ws s eq_refl AZ_ok). Qed.
Lemma int_split : forall u z r, INT false u = Some (z, r) -> exists t, u = t ++ r /\ t <> "" /\ int_value z (text_value t).
Proof.
  intros u z r H. apply INT_inv in H. unfold base in H. destruct H as (neg & sg & ds & n & S & D & E & N & Z). exists (sg ++ ds).
  rewrite E, string_app_assoc. split; [reflexivity|]. split.
  - destruct D as (D & _). destruct sg; [exact D|discriminate].
  - exists (sg ++ ds). split; [reflexivity|]. exists neg, sg, ds, n. rewrite string_app_nil. split; [exact S|]. split; [exact D|]. split; [reflexivity|]. split; [constructor|exact Z].
Qed.
Lemma ag_int : forall ws s, agrees (Rule "INT") INT ws 1 (fun o a => int_value a (snd o)) s.
Proof.
  intros ws s. eapply ag_rule; [reflexivity|reflexivity|]. unfold token_rule. cbn [r_body r_object fst snd].
  apply ag_rx; [reflexivity| |apply int_split]. intros p u U. exact (int_regex_ok digit word STD p u U).
Qed.
Lemma float_split : forall u f r, STRICTFLOAT false u = Some (f, r) -> exists t, u = t ++ r /\ t <> "" /\ float_value f (text_value t).
Proof.
  intros u f r H. apply STRICTFLOAT_inv in H. unfold base in H. destruct H as (neg & sg & ds & fs & n & point & expo & x & S & D & P & X & Q & E & N & F).
  exists (sg ++ ds ++ point ++ fs ++ expo). rewrite E. split; [rewrite !string_app_assoc; reflexivity|]. split.
  - destruct D as (D & _). intros Y. destruct sg; [|discriminate]. destruct ds; [|discriminate]. destruct point; [|discriminate]. destruct fs; [|discriminate].
    apply D. reflexivity.
  - exists (sg ++ ds ++ point ++ fs ++ expo). split; [reflexivity|]. exists neg, sg, ds, fs, n, point, expo, x.
    rewrite string_app_nil. split; [exact S|]. split; [exact D|]. split; [exact P|]. split; [exact X|]. split; [exact Q|]. split; [reflexivity|]. split; [constructor|exact F].
Qed.
Lemma ag_float : forall ws s, agrees (Rule "STRICTFLOAT") STRICTFLOAT ws 1 (fun o a => float_value a (snd o)) s.
Proof.
  intros ws s. eapply ag_rule; [reflexivity|reflexivity|]. unfold token_rule. cbn [r_body r_object fst snd].
  apply ag_rx; [reflexivity| |apply float_split]. intros p u U. exact (float_regex_ok digit word STD p u U).
Qed.
Lemma ag_attr_lit : forall n t ws s, agrees (Attr n (Lit t)) (lit t) ws (String.length t) (fun o _ => fst o = [(n, text_value t)]) s.
Proof.
  intros n t ws s. eapply ag_weaken; [apply (ag_attr _ n (Lit t) (lit t) ws (String.length t) (fun _ v => v = text_value t))|apply Nat.le_refl|].
  - eapply ag_weaken; [apply ag_lit|apply Nat.le_refl|]. intros o a ->. reflexivity.
  - intros o a (v & E & ->). exact E.
Qed.
Lemma ag_spaces : forall ws s, agrees (Rep " ") (many (lit " ")) ws 0 (fun o _ => fst o = []) s.
Proof.
  intros ws s. eapply ag_weaken; [apply (ag_many _ _ _ _ 0 (fun o _ => o = ([], text_value " "))); intros r _; apply (ag_lit " ")|apply Nat.le_refl|].
  intros o l (os & F & E). rewrite E. clear E. induction F as [|x y l l' H F IH]; [reflexivity|]. subst x. exact IH.
Qed.

(** ** Comments *)
Lemma ag_unit : forall s, agrees (Attr "unit" (Rx (unit_regex digit))) unit_text false 1 (fun o u => u <> "" /\ fst o = [("unit", text_value u)]) s.
Proof.
  intros s. eapply ag_weaken; [apply (ag_attr _ "unit" _ unit_text false 1 (fun u v => u <> "" /\ v = text_value u))|apply Nat.le_refl|].
  - apply (ag_rx _ _ _ _ (fun u v => u <> "" /\ v = text_value u)); [reflexivity|intros p u U; exact (unit_regex_ok digit word STD p u U)|].
    intros u a r H. unfold unit_text, token in H. destruct (span unit_class u) as [x y] eqn:E. destruct (String.eqb_spec x "") as [|N]; [discriminate|].
    injection H as <- <-. apply span_inv in E as (_ & -> & _). exists x. auto.
  - intros o a (v & E & N & ->). auto.
Qed.
Lemma ag_text : forall s, agrees (Attr "comment" (Rx comment_regex)) comment_text false 1 (fun o u => u <> "" /\ fst o = [("comment", text_value u)]) s.
Proof.
  intros s. eapply ag_weaken; [apply (ag_attr _ "comment" _ comment_text false 1 (fun u v => u <> "" /\ v = text_value u))|apply Nat.le_refl|].
  - apply (ag_rx _ _ _ _ (fun u v => u <> "" /\ v = text_value u)); [reflexivity|intros p u U; exact (comment_regex_ok p u U)|].
    intros u a r H. unfold comment_text, token in H. destruct (span comment_class u) as [x y] eqn:E. destruct (String.eqb_spec x "") as [|N]; [discriminate|].
    destruct (at_line_end y); [|discriminate]. injection H as <- <-. apply span_inv in E as (_ & -> & _). exists x. auto.
  - intros o a (v & E & N & ->). auto.
Qed.
Ltac outs := unfold both in *; cbn [fst snd] in *;
  repeat match goal with
  | H : exists _, _ |- _ => destruct H
  | H : _ /\ _ |- _ => destruct H
  | H : ?o = ([], text_value _) |- _ => is_var o; subst o; cbn [fst snd] in *
  | H : is_text _ ?v |- _ => unfold is_text in H; subst v
  | H : fst ?o = _ |- _ => rewrite H in *; clear H
  end; cbn [app] in *.
Ltac seq tac := eapply ag_cat; [tac|intros ? ? ? ? ?].

Lemma ag_comment : forall ws s, agrees (Rule "Asn1Comment") Asn1Comment ws 2 (fun o c => comment_value c = snd o) s.
Proof.
  intros ws s. unfold Asn1Comment. eapply ag_rule_no; [reflexivity|reflexivity|]. cbn [r_body r_object snd].
  eapply ag_weaken with (k' := (0 + (2 + (0 + (0 + (0 + (0 + (0 + 0)))))))%nat); [|lia|intros o a H; exact H].
  seq ltac:(apply ag_spaces). seq ltac:(apply (ag_lit "--")). seq ltac:(apply ag_spaces).
  seq ltac:(eapply ag_opt, (ag_attr_lit "is_little_endian" "ENDIANNESS(LITTLE)")). seq ltac:(apply ag_spaces).
  seq ltac:(eapply ag_opt).
  { apply (ag_cat _ _ _ _ _ _ false 1 2 _ (fun o u => u <> "" /\ fst o = [("unit", text_value u)]) _ (ag_lit "[" false _)). intros ? ? ? ? ?.
    apply (ag_cat _ _ _ _ _ _ false 1 1 _ _ _ (ag_unit _)). intros ? ? ? ? ?. eapply ag_ret; [apply (ag_lit "]")|]. intros ? ? ?. outs. auto. }
  seq ltac:(apply ag_spaces).
  eapply ag_ret; [eapply ag_opt, ag_text|]. intros ? ? ?.
  unfold comment_value. cbn [cm_little_endian cm_unit cm_text].
  repeat match goal with x : option _ |- _ => destruct x end; cbn [or_empty Grammar.is_some]; outs;
    repeat match goal with H : _ <> "" |- _ => apply String.eqb_neq in H; rewrite H end; cbn [String.eqb app]; reflexivity.
Qed.
Lemma ag_comment_opt : forall n ws s, agrees (Optional (Attr n (Rule "Asn1Comment"))) (opt Asn1Comment) ws 0 (fun o c => fst o = comment_attr n c) s.
Proof.
  intros n ws s. eapply ag_weaken; [eapply ag_opt, (ag_attr _ n _ _ ws 2 (fun c v => comment_value c = v)), ag_comment|apply Nat.le_refl|].
  intros o [c|] H; [|exact H]. destruct H as (v & H & <-). exact H.
Qed.

(** ** Types *)
Ltac tok := lazymatch goal with
  | |- agrees (Attr _ (Lit _)) _ _ _ _ _ => apply ag_attr_lit
  | |- agrees (Attr _ _) _ _ _ _ _ => eapply ag_attr; tok
  | |- agrees (Rule "NameLower") _ _ _ _ _ => apply ag_lower
  | |- agrees (Rule "NameCapital") _ _ _ _ _ => apply ag_capital
  | |- agrees (Rule "INT") _ _ _ _ _ => apply ag_int
  | |- agrees (Rule "STRICTFLOAT") _ _ _ _ _ => apply ag_float
  | |- agrees (Optional (Attr _ (Rule "Asn1Comment"))) _ _ _ _ _ => apply ag_comment_opt
  | |- agrees comment_opt _ _ _ _ _ => apply ag_comment_opt
  | |- agrees (Lit _) _ _ _ _ _ => apply ag_lit
  end.
Ltac step := eapply ag_cat; [tok|intros ? ? ? ? ?].
Ltac last_tok := eapply ag_ret; [tok|intros ? ? ?].
Ltac weak := match goal with |- agrees _ _ _ _ ?R _ => eapply (ag_weaken _ _ _ _ _ _ R R); [| |intros ? ? HH; exact HH] end.
Ltac small := cbn [String.length]; lia.

Lemma ag_range : forall A n sep (m : parser A) (V : A -> value -> Prop) ws s, 
  (forall r, agrees (Rule n) m ws 1 (fun o a => V a (snd o)) r) ->
  agrees (range_of n sep) (opt (lit "(" ;; b <- m ;; lit sep ;; e <- m ;; lit ")" ;; ret (b, e))) ws 0 (fun o r => range_value V r (fst o)) s.
Proof.
  intros A n sep m V ws s H. unfold range_of. eapply ag_weaken; [eapply ag_opt|apply Nat.le_refl|].
  - eapply (ag_cat _ _ _ _ _ _ ws _ _ _ (fun o r => range_value V (Some r) (fst o)) _ (ag_lit "(" ws _)). intros ? ? ? ? ?.
    eapply ag_cat; [eapply ag_attr, H|intros ? ? ? ? ?]. step. eapply ag_cat; [eapply ag_attr, H|intros ? ? ? ? ?]. last_tok. outs. eexists _, _. eauto.
  - intros o [r|] X; exact X.
Qed.
Definition string_object (t : asn_type) (v : value) : Prop := match t with
  | TString k n => exists x, v = Object "Asn1String" [("type_name", text_value (string_kind_name k)); ("length", x)] /\ int_value n x
  | _ => False
  end.
Lemma ag_string : forall ws s, agrees (Rule "Asn1String") Asn1String ws 1 (fun o t => string_object t (snd o)) s.
Proof.
  intros ws s. eapply ag_rule; [reflexivity|reflexivity|]. cbn [r_body r_object snd object]. weak. { unfold Asn1String.
  eapply ag_cat; [eapply (ag_or _ _ _ _ _ _ _ _ (fun o k => fst o = [("type_name", text_value (string_kind_name k))]))|intros ? ? ? ? ?].
  - last_tok. outs. reflexivity.
  - last_tok. outs. reflexivity.
  - step. step. last_tok. outs. eexists. split; [reflexivity|assumption].
  } small.
Qed.
Definition array_object (t : asn_type) (v : value) : Prop := match t with
  | TArray n e => exists x y, v = Object "Array" [("length", x); ("asn_type", y)] /\ int_value n x /\ type_value e y
  | _ => False
  end.
Lemma ag_array : forall f,
  (forall ws s, (String.length s <= f)%nat -> agrees (Rule "Asn1Type") (Asn1Type f) ws 1 (fun o t => type_value t (snd o)) s) ->
  forall ws s, (String.length s <= f)%nat -> agrees (Rule "Array")
    (lit "SEQUENCE (SIZE (" ;; n <- INT ;; lit ")) OF" ;; t <- Asn1Type f ;; ret (TArray n t)) ws 1 (fun o t => array_object t (snd o)) s.
Proof.
  intros f IH ws s L. eapply ag_rule; [reflexivity|reflexivity|]. cbn [r_body r_object snd object]. weak. {
  step. step. step. eapply ag_ret; [eapply ag_attr; apply IH; cbn [String.length] in *; lia|]. intros ? ? ?. outs. eexists _, _. eauto.
  } small.
Qed.
Lemma ag_type : forall f ws s, (String.length s <= f)%nat -> agrees (Rule "Asn1Type") (Asn1Type f) ws 1 (fun o t => type_value t (snd o)) s.
Proof.
  induction f as [|f IH]; intros ws s L.
  - destruct s; [|simpl in L; lia]. intros _ p. cbn [Asn1Type]. eapply P_rule_no; [reflexivity|]. cbn [r_body r_noskipws].
    repeat (apply P_second; [apply P_cat_no1; exact (P_lit rls " " false (p, []))|]). apply P_cat_no1. exact (P_lit rls " " false (p, [])).
  - cbn [Asn1Type]. eapply ag_rule_no; [reflexivity|reflexivity|]. cbn [r_body r_object snd]. weak. {
    eapply ag_or; [|eapply ag_or; [|eapply ag_or; [|eapply ag_or; [|eapply ag_or; [|eapply ag_or]]]]].
    + step. step. eapply ag_ret; [apply ag_range, ag_float|]. intros ? ? ?. outs. cbn [type_value]. eexists. split; [reflexivity|assumption].
    + step. step. eapply ag_ret; [apply ag_range, ag_int|]. intros ? ? ?. outs. cbn [type_value]. eexists. split; [reflexivity|assumption].
    + step. last_tok. outs. reflexivity.
    + step. last_tok. outs. reflexivity.
    + step. eapply ag_weaken; [eapply ag_attr, ag_string|apply Nat.le_refl|]. intros ? t ?. outs. destruct t; try contradiction. cbn [string_object type_value] in *.
      outs. eexists. split; [subst; reflexivity|assumption].
    + step. eapply ag_weaken; [eapply ag_attr, (ag_array f IH); cbn [String.length] in *; lia|apply Nat.le_refl|].
      intros ? t ?. outs. destruct t; try contradiction. cbn [array_object type_value] in *. outs. subst. eauto 8.
    + step. last_tok. outs. reflexivity.
    } small.
Qed.

(** ** Lists *)
Lemma ag_many_attr : forall A n e (m : parser A) ws k (V : A -> value -> Prop) s,
  (forall r, (String.length r <= String.length s)%nat -> agrees e m ws (S k) (fun o a => V a (snd o)) r) ->
  agrees (Rep (Attr n e)) (many m) ws 0 (fun o l => exists vs, fst o = all_named n vs /\ Forall2 V l vs) s.
Proof.
  intros A n e m ws k V s H. eapply ag_weaken; [eapply ag_many; intros r L; eapply ag_attr, H, L|apply Nat.le_refl|].
  intros o l (os & F & E). rewrite E. clear E o. induction F as [|o a os l (v & X & Y) F (vs & E & G)].
  - exists []. split; [reflexivity|constructor].
  - exists (v :: vs). cbn [map concat]. rewrite X, E. split; [reflexivity|constructor; assumption].
Qed.
Lemma in_order_last : forall A (R : bool -> A -> value -> Prop) l x vs v, Forall2 (R false) l vs -> R true x v -> in_order R (l ++ [x]) (vs ++ [v]).
Proof.
  intros A R l x vs v F X. induction F as [|a w l vs H F IH]; cbn [app in_order]; [auto|]. split; [|exact IH]. destruct l; exact H.
Qed.
Lemma all_named_last : forall n vs v, all_named n (vs ++ [v]) = (all_named n vs ++ [(n, v)])%list.
Proof. intros n vs v. unfold all_named. rewrite map_app. reflexivity. Qed.

(** ** Clauses *)
Definition clause_agrees (m : parser wcomps) (ws : bool) (s : string) : Prop :=
  agrees (Rule "WithComponents") m ws 1 (fun o w => clause_value w (snd o)) s.
Lemma ag_component : forall c ws s, clause_agrees c ws s ->
  agrees (component_values) (component_value c) ws 1 (fun o x => exists v, fst o = [("value", v)] /\ component_is x v) s.
Proof.
  intros c ws s H. weak. {
  eapply ag_or; [|eapply ag_or; [|eapply ag_or; [|eapply ag_or]]].
  - step. step. last_tok. outs. eexists. split; [reflexivity|assumption].
  - step. step. last_tok. outs. eexists. split; [reflexivity|assumption].
  - step. step. last_tok. outs. eexists. split; reflexivity.
  - step. step. last_tok. outs. eexists. split; reflexivity.
  - eapply ag_ret; [eapply ag_attr, H|]. intros ? ? ?. outs. eexists. split; [reflexivity|assumption].
  } small.
Qed.
Lemma ag_item : forall c ws s, (forall r, (String.length r < String.length s)%nat -> clause_agrees c ws r) ->
  agrees (Rule "ComponentsItemNotLast") (ComponentsItemNotLast c) ws 1 (fun o i => item_value false i (snd o)) s
  /\ agrees (Rule "ComponentsItemLast") (ComponentsItemLast c) ws 1 (fun o i => item_value true i (snd o)) s.
Proof.
  intros c ws s H. split; (eapply ag_rule; [reflexivity|reflexivity|]); cbn [r_body r_object snd object]; weak.
  - step. eapply ag_cat; [apply ag_component, H; lia|intros ? ? ? ? ?]. step. last_tok. outs. eexists. split; [reflexivity|assumption].
  - small.
  - step. eapply ag_cat; [apply ag_component, H; lia|intros ? ? ? ? ?]. last_tok. outs. eexists. split; [reflexivity|assumption].
  - small.
Qed.
Lemma ag_clause : forall f ws s, (String.length s <= f)%nat -> clause_agrees (WithComponents f) ws s.
Proof.
  induction f as [|f IH]; intros ws s L.
  - destruct s; [|simpl in L; lia]. intros _ p. cbn [WithComponents]. eapply P_rule_no; [reflexivity|]. cbn [r_body r_noskipws object].
    apply P_cat_no1. pose proof (P_lit rls "(WITH COMPONENTS {" ws (p, [])) as P. destruct ws; exact P.
  - eapply ag_rule; [reflexivity|reflexivity|]. cbn [r_body r_object snd object WithComponents]. weak. {
    step. step.
    eapply ag_cat; [eapply ag_many_attr; intros; apply (fun h => proj1 (ag_item _ _ _ h)); intros; apply IH; cbn [String.length] in *; lia|intros ? ? ? ? ?].
    eapply ag_cat; [eapply ag_attr; apply (fun h => proj2 (ag_item _ _ _ h)); intros; apply IH; cbn [String.length] in *; lia|intros ? ? ? ? ?].
    last_tok. outs. cbn [clause_value]. eexists. split; [rewrite all_named_last, ?app_nil_r; reflexivity|]. apply in_order_last; assumption.
    } small.
Qed.
Lemma ag_clause' : forall ws s, clause_agrees clause ws s.
Proof. intros ws s. exact (ag_clause (String.length s) ws s (Nat.le_refl _)). Qed.
Lemma ag_typ : forall ws s, agrees (Rule "Asn1Type") typ ws 1 (fun o t => type_value t (snd o)) s.
Proof. intros ws s. exact (ag_type (String.length s) ws s (Nat.le_refl _)). Qed.

(** ** Members, items, definitions *)
Ltac tok ::= lazymatch goal with
  | |- agrees (Attr _ (Lit _)) _ _ _ _ _ => apply ag_attr_lit
  | |- agrees (Attr _ _) _ _ _ _ _ => eapply ag_attr; tok
  | |- agrees (Rule "NameLower") _ _ _ _ _ => apply ag_lower
  | |- agrees (Rule "NameCapital") _ _ _ _ _ => apply ag_capital
  | |- agrees (Rule "INT") _ _ _ _ _ => apply ag_int
  | |- agrees (Rule "STRICTFLOAT") _ _ _ _ _ => apply ag_float
  | |- agrees (Rule "Asn1Type") _ _ _ _ _ => apply ag_typ
  | |- agrees (Rule "WithComponents") _ _ _ _ _ => apply ag_clause'
  | |- agrees (Optional (Attr _ (Rule "Asn1Comment"))) _ _ _ _ _ => apply ag_comment_opt
  | |- agrees comment_opt _ _ _ _ _ => apply ag_comment_opt
  | |- agrees (Optional _) _ _ _ _ _ => eapply ag_opt; tok
  | |- agrees (Lit _) _ _ _ _ _ => apply ag_lit
  end.
Lemma ag_member : forall ws s, agrees (Rule "KeyTypePairNotLast") KeyTypePairNotLast ws 1 (fun o x => member_value false x (snd o)) s
  /\ agrees (Rule "KeyTypePairLast") KeyTypePairLast ws 1 (fun o x => member_value true x (snd o)) s.
Proof.
  intros ws s. split; (eapply ag_rule; [reflexivity|reflexivity|]); cbn [r_body r_object snd object]; weak.
  - eapply ag_or.
    + step. step. step. last_tok. outs. exists x, []. split; [rewrite app_nil_r; reflexivity|]. split; [assumption|reflexivity].
    + step. step. step. step. last_tok. outs. eexists _, _. split; [reflexivity|]. split; [assumption|]. eexists. split; [reflexivity|assumption].
  - small.
  - step. step. step. last_tok. destruct a2; outs; (eexists _, _; split; [reflexivity|]); (split; [assumption|]); [eexists; split; [reflexivity|assumption]|reflexivity].
  - small.
Qed.
Lemma ag_pos : forall ws s, agrees (Optional ("(" # Attr "pos" (Rule "INT") # ")")) (opt (lit "(" ;; z <- INT ;; lit ")" ;; ret z)) ws 0
  (fun o x => number_value x (fst o)) s.
Proof.
  intros ws s. eapply ag_weaken; [eapply ag_opt|apply Nat.le_refl|].
  - eapply (ag_cat _ _ _ _ _ _ ws _ _ _ (fun o r => number_value (Some r) (fst o)) _ (ag_lit "(" ws _)). intros ? ? ? ? ?.
    step. last_tok. outs. eexists. split; [reflexivity|assumption].
  - intros o [z|] H; exact H.
Qed.
Lemma ag_enum : forall ws s, agrees (Rule "EnumeratedItemNotLast") EnumeratedItemNotLast ws 1 (fun o x => enum_value false x (snd o)) s
  /\ agrees (Rule "EnumeratedItemLast") EnumeratedItemLast ws 1 (fun o x => enum_value true x (snd o)) s.
Proof.
  intros ws s. split; (eapply ag_rule; [reflexivity|reflexivity|]); cbn [r_body r_object snd object]; weak.
  - step. eapply ag_cat; [apply ag_pos|intros ? ? ? ? ?]. step. last_tok. outs. eexists. split; [reflexivity|assumption].
  - small.
  - step. eapply ag_cat; [apply ag_pos|intros ? ? ? ? ?]. last_tok. outs. eexists. split; [reflexivity|assumption].
  - small.
Qed.
Ltac listed l1 l2 := eapply ag_cat; [eapply ag_many_attr; intros; apply l1|intros ? ? ? ? ?];
  eapply ag_cat; [eapply ag_attr, l2|intros ? ? ? ? ?].
Ltac all_listed := last_tok; outs; cbn [definition_value]; eexists; (split; [rewrite all_named_last, ?app_nil_r; reflexivity|]); apply in_order_last; assumption.
Lemma ag_definition : forall ws s, agrees (Rule "Definitions") Definitions ws 1 (fun o d => definition_value d (snd o)) s.
Proof.
  intros ws s. eapply ag_rule; [reflexivity|reflexivity|]. cbn [r_body r_object snd]. weak. {
  eapply ag_or; [|eapply ag_or; [|eapply ag_or]]; (eapply ag_rule; [reflexivity|reflexivity|]); cbn [r_body r_object snd object].
  - step. step. step. listed (fun r => proj1 (ag_member ws r)) (fun r => proj2 (ag_member ws r)). all_listed.
  - step. step. step. listed (fun r => proj1 (ag_enum ws r)) (fun r => proj2 (ag_enum ws r)). all_listed.
  - step. step. step. listed (fun r => proj1 (ag_member ws r)) (fun r => proj2 (ag_member ws r)). all_listed.
  - step. step. step. last_tok. outs. eexists. split; [reflexivity|assumption].
  } small.
Qed.

(** ** Imports and modules *)
Lemma ag_comma_names : forall n ws s, agrees (Rep ("," # Attr n (Rule "NameCapital"))) (many (lit "," ;; NameCapital)) ws 0
  (fun o l => fst o = all_named n (map text_value l)) s.
Proof.
  intros n ws s. eapply ag_weaken; [eapply (ag_many _ _ _ _ 1 (fun o a => fst o = [(n, text_value a)]))|apply Nat.le_refl|].
  - intros r _. eapply (ag_cat _ _ _ _ _ _ ws 1 1 _ _ _ (ag_lit "," ws _)). intros ? ? ? ? ?. eapply ag_weaken; [tok|apply Nat.le_refl|]. intros ? ? ?. outs. reflexivity.
  - intros o l (os & F & E). rewrite E. clear E o. induction F as [|o a os l X F IH]; [reflexivity|]. cbn [map concat all_named]. rewrite X, IH. reflexivity.
Qed.
Definition is_import (i : import_item) (v : value) : Prop := import_value i = v.
Lemma ag_import : forall ws s, agrees (Rule "ImportItem") ImportItem ws 1 (fun o i => is_import i (snd o)) s.
Proof.
  intros ws s. eapply ag_rule; [reflexivity|reflexivity|]. cbn [r_body r_object snd object]. weak. {
  apply ag_assoc; [intros o o' x E X; unfold is_import in *; cbn [snd] in *; congruence|].
  step. eapply ag_cat; [apply ag_comma_names|intros ? ? ? ? ?]. step. step. last_tok. outs. reflexivity.
  } small.
Qed.
Lemma ag_imports : forall ws s, agrees
  (Optional ("IMPORTS" # (Attr "import_items" (Rule "ImportItem") # Rep (Attr "import_items" (Rule "ImportItem"))) # ";"
                # Optional (Attr "comment_import" (Rule "Asn1Comment"))))
  (opt imports) ws 0 (fun o x => fst o = match x with
    | Some (l, c) => (all_named "import_items" (map import_value l) ++ comment_attr "comment_import" c)%list
    | None => [] end) s.
Proof.
  intros ws s. eapply ag_weaken; [eapply ag_opt|apply Nat.le_refl|].
  - unfold imports. eapply (ag_cat _ _ _ _ _ _ ws _ _ _
      (fun o x => fst o = (all_named "import_items" (map import_value (fst x)) ++ comment_attr "comment_import" (snd x))%list) _ (ag_lit "IMPORTS" ws _)).
    intros ? ? ? ? ?. apply ag_assoc; [intros o o' x E; unfold both; cbn [fst]; rewrite E; auto|].
    eapply ag_cat; [eapply ag_attr, ag_import|intros ? ? ? ? ?].
    eapply ag_cat; [eapply ag_many_attr; intros; apply ag_import|intros ? ? ? ? ?]. step. last_tok. unfold is_import in *. outs. subst.
    match goal with F : Forall2 _ _ _ |- _ => assert (F' : map import_value a1 = x) by (clear -F; induction F; cbn [map]; congruence) end. subst.
    cbn [map all_named app]. reflexivity.
  - intros o [[l c]|] H; exact H.
Qed.
Lemma ag_module : forall ws s, agrees (Rule "Asn1Module") Asn1Module ws 1 (fun o m => module_value m (snd o)) s.
Proof.
  intros ws s. eapply ag_rule; [reflexivity|reflexivity|]. cbn [r_body r_object snd object]. weak. {
  step. step. step. step. eapply ag_cat; [apply ag_imports|intros ? ? ? ? ?].
  apply ag_assoc; [intros o o' x E; unfold both; cbn [fst]; rewrite E; auto|].
  eapply ag_cat; [eapply ag_attr, ag_definition|intros ? ? ? ? ?].
  eapply ag_cat; [eapply ag_many_attr; intros; apply ag_definition|intros ? ? ? ? ?]. last_tok.
  destruct a3 as [[l c]|]; outs; (eexists; split; [|cbn [mod_defs]; constructor; eassumption]); cbn [mod_name mod_comment mod_imports mod_comment_import map all_named app comment_attr];
    rewrite ?app_nil_r, <- ?app_assoc; reflexivity.
  } small.
Qed.
Theorem grammar_agrees : forall s, ascii_text s = true ->
  match read_module s with
  | Some m => exists v, parse_result digit word (codes s) (Some v) /\ module_value m v
  | None => parse_result digit word (codes s) None
  end.
Proof.
  intros s AS. pose proof (ag_module true s AS None) as H. unfold read_module, andthen. destruct (Asn1Module true s) as [[m r]|].
  - destruct H as ((o & q & P & V) & AR & L). unfold end_of_input, token, ret.
    destruct (start_ok true q r) as (q' & E). pose proof (P_end rls true (q, codes r)) as PE. rewrite E in PE. cbn [snd base] in PE.
    destruct (skip_blanks r) as [|c u].
    + exists (snd o). split; [|exact V]. eexists. split; [eapply P_cat; [apply P_attr, P|exact PE]|]. reflexivity.
    + rewrite codes_cons in PE. eexists. split; [eapply P_cat_no2; [apply P_attr, P|exact PE]|]. reflexivity.
  - eexists. split; [apply P_cat_no1, P_attr_no, H|]. reflexivity.
Qed.
End Agree.
Theorem parse_unique : forall digit word t a b, parse_result digit word t a -> parse_result digit word t b -> a = b.
Proof. intros digit word t a b (r & P & ->) (r' & P' & ->). rewrite (parses_det _ _ _ _ _ P _ P'). reflexivity. Qed.

(** ** The characters of a text *)
Section Characters.
Variables digit word : N -> bool.
Notation rls := (rules digit word).
Definition allowed (c : N) : Prop := (c < 128)%N \/ digit c = true.
Fixpoint plain (e : peg) : Prop :=
  match e with
  | Lit t => ascii_text t = true
  | Rx r => forall c, class_of r c = true -> allowed c
  | Cat a b | Choose a b => plain a /\ plain b
  | Rep a | Optional a | Attr _ a => plain a
  | Rule _ | End => True
  end.
Lemma skip_consumed : forall s p q r, skip_blank p s = (q, r) -> exists t, s = (t ++ r)%list /\ Forall allowed t.
Proof.
  induction s as [|c s IH]; intros p q r H; cbn [skip_blank] in H; [injection H as _ <-; exists []; split; [reflexivity|constructor]|].
  destruct (blank c) eqn:B; [|injection H as _ <-; exists []; split; [reflexivity|constructor]].
  destruct (IH _ _ _ H) as (t & -> & F). exists (c :: t). split; [reflexivity|]. constructor; [|exact F]. left. unfold blank in B. lia.
Qed.
Lemma start_consumed : forall ws x, exists t, snd x = (t ++ snd (start ws x))%list /\ Forall allowed t.
Proof.
  intros [|] [p s]; unfold start; cbn [fst snd]; [|exists []; split; [reflexivity|constructor]].
  destruct (skip_blank p s) as [q r] eqn:E. apply (skip_consumed s p q r E).
Qed.
Lemma strip_consumed : forall t x y, strip t x = Some y -> snd x = (t ++ snd y)%list.
Proof.
  induction t as [|c t IH]; intros [p s] y H; cbn [strip snd] in H; [injection H as <-; reflexivity|]. destruct s as [|d s]; [discriminate|].
  destruct (N.eqb_spec c d) as [->|]; [|discriminate]. apply IH in H. cbn [snd] in *. rewrite H. reflexivity.
Qed.
Lemma ascii_codes : forall t, ascii_text t = true -> Forall allowed (codes t).
Proof.
  induction t as [|c t IH]; intros H; [constructor|]. cbn [ascii_text] in H. apply andb_true_iff in H as [H1 H2]. rewrite codes_cons.
  constructor; [left; unfold ascii_char in H1; lia|apply IH, H2].
Qed.
Lemma parses_consumed : (forall n r, rls n = Some r -> plain (r_body r)) -> forall e ws x res, Parses rls e ws x res ->
  plain e -> forall o y, res = Some (o, y) -> exists t, snd x = (t ++ snd y)%list /\ Forall allowed t.
Proof.
  intros RP e ws x res H.
  assert (Two : forall (x y z : state), (exists t, snd x = (t ++ snd y)%list /\ Forall allowed t) -> (exists t, snd y = (t ++ snd z)%list /\ Forall allowed t) ->
    exists t, snd x = (t ++ snd z)%list /\ Forall allowed t).
  { intros a b c (t & E & F) (u & E' & F'). exists (t ++ u)%list. rewrite E, E', app_assoc. split; [reflexivity|]. apply Forall_app. auto. }
  assert (Same : forall x : state, exists t, snd x = (t ++ snd x)%list /\ Forall allowed t) by (intros a; exists []; split; [reflexivity|constructor]).
  induction H; intros PL w zz E; cbn [plain] in PL; try discriminate E; try (injection E as <- <-).
  - destruct (strip (codes t) (start ws x)) as [y|] eqn:S; [|discriminate]. injection E as _ <-. apply strip_consumed in S.
    apply (Two _ (start ws x)); [apply start_consumed|]. exists (codes t). split; [exact S|apply ascii_codes, PL].
  - destruct (hd_error (matches r (start ws x))) as [y|] eqn:S; [|discriminate]. injection E as _ <-.
    assert (J : In y (matches r (start ws x))) by (destruct (matches r (start ws x)); [discriminate|injection S as ->; left; reflexivity]).
    apply consumed in J as (t & J & F). apply (Two _ (start ws x)); [apply start_consumed|]. exists t. split; [exact J|]. apply Forall_forall. intros c C.
    rewrite forallb_forall in F. apply PL, F, C.
  - destruct PL as [P1 P2]. apply (Two _ y); [eapply IHParses1|eapply IHParses2]; eauto.
  - destruct PL as [P1 P2]. eapply IHParses; eauto.
  - destruct PL as [P1 P2]. eapply IHParses2; eauto.
  - apply Same.
  - apply (Two _ y); [eapply IHParses1|eapply IHParses2]; eauto.
  - eapply IHParses; eauto.
  - apply Same.
  - eapply IHParses; eauto.
  - eapply IHParses; eauto.
  - destruct (snd (start ws x)) eqn:S; [|discriminate]. injection E as _ <-. apply start_consumed.
Qed.
Hypothesis STD : standard digit word.
Lemma rules_plain : forall n r, rls n = Some r -> plain (r_body r).
Proof.
  assert (F : Forall (fun x => plain (r_body (snd x))) (grammar digit word)).
  { assert (NM : forall f, (forall c, f c = true -> (c < 128)%N) -> forall c, class_of (name_regex digit f) c = true -> allowed c).
    { intros f Ff c H. unfold name_regex, Plus in H. cbn [class_of] in H. unfold name_class, az, range, char in H. specialize (Ff c).
      unfold allowed. destruct (digit c); [auto|left]. destruct (f c); [apply Ff; reflexivity|]. cbn in H. lia. }
    unfold grammar. repeat (constructor; [cbn [r_body snd object token_rule plain component_values comment_opt range_of]; repeat split; try reflexivity|]); [..|constructor].
    - intros c H. unfold unit_regex, Plus in H. cbn [class_of] in H. unfold char, AZ, az, range in H. unfold allowed. destruct (digit c); [auto|left]. cbn in H. lia.
    - intros c H. unfold comment_regex, Plus in H. cbn [class_of] in H. unfold char, AZ, az, d09, range in H. left. cbn in H. lia.
    - apply NM. intros c H. unfold az, range in H. lia.
    - apply NM. intros c H. unfold AZ, range in H. lia.
    - intros c H. unfold int_regex, Plus in H. cbn [class_of] in H. unfold char, d09, range in H. left. cbn in H. lia.
    - intros c H. unfold strictfloat_regex, sign_regex, exponent_regex, sign_regex, point_regex, Plus in H. cbn [class_of] in H. unfold char in H. unfold allowed. destruct (digit c); [auto|left]. cbn in H. lia. }
  intros n r. unfold rules. induction F as [|[m x] l P F IH]; cbn [find_rule]; [discriminate|].
  destruct (String.eqb m n); [|exact IH]. intros E. injection E as <-. exact P.
Qed.
Theorem accepted_characters : forall t v, parse_result digit word t (Some v) -> forall c, In c t -> (c < 128)%N \/ digit c = true.
Proof.
  intros t v (r & P & E) c C. destruct r as [[o y]|]; [|discriminate].
  inversion P as [| |? ? ? ? o1 x o2 z P1 P2| | | | | | | | | | | | |]; subst.
  pose proof (parses_consumed rules_plain _ _ _ _ P (conj Logic.I Logic.I) _ _ eq_refl) as X. cbn [plain] in X.
  destruct X as (u & U & F). cbn [snd] in U. assert (Z : snd y = []).
  { clear -P2. pose proof (parses_det _ _ _ _ _ P2 _ (P_end rls true x)) as K. revert K. destruct (snd (start true x)) eqn:S; intros K; [|discriminate K].
    injection K as _ ->. exact S. }
  rewrite Z, app_nil_r in U. subst u. rewrite Forall_forall in F. apply F, C.
Qed.
End Characters.

(** ** Texts outside ASCII *)
Definition ascii_reads {A} (m : parser A) : Prop := forall ws s a r, m ws s = Some (a, r) -> exists t, s = t ++ r /\ ascii_text t = true.
Lemma ar_ret : forall A (a : A), ascii_reads (ret a).
Proof. intros A a ws s b r H. injection H as _ <-. exists "". auto. Qed.
Lemma ar_then : forall A B (m : parser A) (f : A -> parser B), ascii_reads m -> (forall a, ascii_reads (f a)) -> ascii_reads (andthen m f).
Proof.
  intros A B m f H1 H2 ws s b r H. unfold andthen in H. destruct (m ws s) as [[a u]|] eqn:E; [|discriminate].
  apply H1 in E as (t & -> & AT). apply H2 in H as (v & -> & AV). exists (t ++ v). rewrite string_app_assoc, ascii_app, AT, AV. auto.
Qed.
Lemma ar_or : forall A (m n : parser A), ascii_reads m -> ascii_reads n -> ascii_reads (orelse m n).
Proof. intros A m n H1 H2 ws s a r H. unfold orelse in H. destruct (m ws s) as [[b u]|] eqn:E; [injection H as -> ->; eapply H1, E|eapply H2, H]. Qed.
Lemma ar_opt : forall A (m : parser A), ascii_reads m -> ascii_reads (opt m).
Proof.
  intros A m H1 ws s a r H. unfold opt in H. destruct (m ws s) as [[b u]|] eqn:E; injection H as <- <-; [eapply H1, E|]. exists "". auto.
Qed.
Lemma ar_many : forall A (m : parser A), ascii_reads m -> ascii_reads (many m).
Proof.
  intros A m H1 ws s. unfold many. generalize (String.length s). intros n. revert s. induction n as [|n IH]; intros s a r H; cbn [many_n] in H.
  - injection H as _ <-. exists "". auto.
  - destruct (m ws s) as [[b u]|] eqn:E; [|injection H as _ <-; exists ""; auto].
    destruct (many_n n m ws u) as [[l v]|] eqn:F; [|discriminate]. injection H as _ <-. apply H1 in E as (t & -> & AT). apply IH in F as (w & -> & AW).
    exists (t ++ w). rewrite string_app_assoc, ascii_app, AT, AW. auto.
Qed.
Lemma ar_noskip : forall A (m : parser A), ascii_reads m -> ascii_reads (noskipws m).
Proof. intros A m H ws s a r E. eapply H, E. Qed.
Lemma ar_token : forall A (f : string -> option (A * string)), (forall s a r, f s = Some (a, r) -> exists t, s = t ++ r /\ ascii_text t = true) -> ascii_reads (token f).
Proof.
  intros A f H ws s a r E. unfold token in E. destruct ws; [|eapply H, E]. apply H in E as (t & E & AT). destruct (skip_blanks_split s) as (b & B & X & _).
  exists (b ++ t). rewrite X, E, ascii_app, AT, string_app_assoc. split; [reflexivity|]. rewrite andb_true_r. clear -B.
  induction b as [|c b IH]; [reflexivity|]. cbn [all_chars] in B. apply andb_true_iff in B as [B1 B2]. cbn [ascii_text]. rewrite (IH B2), andb_true_r.
  clear -B1. destruct c as [[] [] [] [] [] [] [] []]; try discriminate; reflexivity.
Qed.
Lemma ar_lit : forall t, ascii_text t = true -> ascii_reads (lit t).
Proof.
  intros t AT. apply ar_token. intros s a r H. destruct (drop_prefix t s) as [x|] eqn:D; [|discriminate]. injection H as _ <-. apply drop_prefix_some in D.
  exists t. auto.
Qed.
Lemma all_ascii : forall (f : ascii -> bool) t, (forall c, f c = true -> ascii_char c = true) -> all_chars f t = true -> ascii_text t = true.
Proof.
  intros f t H. induction t as [|c t IH]; [reflexivity|]. cbn [all_chars ascii_text]. intros E. apply andb_true_iff in E as [E1 E2].
  rewrite (H c E1), (IH E2). reflexivity.
Qed.
Ltac chars_ascii := let H := fresh in intros [[] [] [] [] [] [] [] []] H; first [reflexivity|discriminate H].
Lemma digit_ascii : forall c, is_digit c = true -> ascii_char c = true. Proof. chars_ascii. Qed.
Lemma ar_name : forall f, (forall c, f c = true -> ascii_char c = true) -> ascii_reads (name_with f).
Proof.
  intros f F. apply ar_token. intros s a r H. destruct s as [|c s]; [discriminate|]. destruct (f c) eqn:FC; [|discriminate].
  destruct (name_rest s) as [x y] eqn:E. injection H as _ <-. apply name_rest_inv in E as (T & -> & _). exists (String c x). split; [reflexivity|].
  cbn [ascii_text]. rewrite (F c FC). cbn [andb]. clear -T.
  assert (A : forall n x, (String.length x <= n)%nat -> name_tail x = true -> ascii_text x = true).
  { intros n. induction n as [|n IH]; intros [|c u] L H; try reflexivity; [simpl in L; lia|]. cbn [name_tail] in H. cbn [String.length] in L.
    destruct (Ascii.eqb_spec c "-") as [->|].
    - destruct u as [|d v]; [discriminate|]. cbn [String.length] in L. apply andb_true_iff in H as [H1 H2]. cbn [ascii_text]. rewrite (IH v ltac:(lia) H2), andb_true_r.
      clear -H1. destruct d as [[] [] [] [] [] [] [] []]; first [reflexivity|discriminate H1].
    - apply andb_true_iff in H as [H1 H2]. cbn [ascii_text]. rewrite (IH u ltac:(lia) H2), andb_true_r.
      clear -H1. destruct c as [[] [] [] [] [] [] [] []]; first [reflexivity|discriminate H1]. }
  exact (A _ x (Nat.le_refl _) T).
Qed.
Lemma sign_ascii : forall neg sg, signs neg sg -> ascii_text sg = true.
Proof. intros [|] sg H; cbn [signs] in H; [subst; reflexivity|]. destruct H as [-> | ->]; reflexivity. Qed.
Lemma decimal_ascii : forall ds n, decimal ds n -> ascii_text ds = true.
Proof. intros ds n (_ & D & _). revert D. apply all_ascii, digit_ascii. Qed.
Lemma ar_int : ascii_reads INT.
Proof.
  apply (ar_token _ _). intros s a r H. assert (X := INT_inv false s a r H). unfold base in X. destruct X as (neg & sg & ds & n & S & D & E & _).
  exists (sg ++ ds). rewrite E, string_app_assoc, ascii_app, (sign_ascii _ _ S), (decimal_ascii _ _ D). auto.
Qed.
Lemma ar_float : ascii_reads STRICTFLOAT.
Proof.
  apply (ar_token _ _). intros s a r H. assert (X := STRICTFLOAT_inv false s a r H). unfold base in X.
  destruct X as (neg & sg & ds & fs & n & point & expo & x & S & D & P & X & _ & E & _).
  exists (sg ++ ds ++ point ++ fs ++ expo). rewrite E. split; [rewrite !string_app_assoc; reflexivity|].
  apply decimal_ascii in D. rewrite ascii_app in D. apply andb_true_iff in D as [D1 D2]. rewrite !ascii_app, (sign_ascii _ _ S), D1, D2. cbn [andb].
  replace (ascii_text point) with true by (destruct P as [(-> & _)| ->]; reflexivity). cbn [andb].
  destruct X as [(-> & _)|(e & neg' & sg' & xs & y & Ee & S' & D' & -> & _)]; [reflexivity|].
  rewrite !ascii_app, (sign_ascii _ _ S'), (decimal_ascii _ _ D'). destruct Ee as [-> | ->]; reflexivity.
Qed.
Lemma ar_unit : ascii_reads unit_text.
Proof.
  apply ar_token. intros s a r H. destruct (span unit_class s) as [x y] eqn:E. destruct (String.eqb x ""); [discriminate|]. injection H as _ <-.
  apply span_inv in E as (T & -> & _). exists x. split; [reflexivity|]. revert T. apply all_ascii. chars_ascii.
Qed.
Lemma ar_text : ascii_reads comment_text.
Proof.
  apply ar_token. intros s a r H. destruct (span comment_class s) as [x y] eqn:E. destruct (String.eqb x ""); [discriminate|].
  destruct (at_line_end y); [|discriminate]. injection H as _ <-.
  apply span_inv in E as (T & -> & _). exists x. split; [reflexivity|]. revert T. apply all_ascii. chars_ascii.
Qed.
Ltac ar := repeat first
  [ apply ar_then; [|intros ?] | apply ar_ret | apply ar_or | apply ar_opt | apply ar_many | apply ar_noskip | apply ar_lit; reflexivity
  | apply ar_int | apply ar_float | apply ar_unit | apply ar_text | apply ar_name; chars_ascii | assumption ].
Lemma ar_comment : ascii_reads Asn1Comment. Proof. unfold Asn1Comment. ar. Qed.
Lemma ar_type : forall f, ascii_reads (Asn1Type f).
Proof. induction f as [|f IH]; [intros ws s a r H; discriminate|]. cbn [Asn1Type]. unfold Asn1String, NameCapital. ar. Qed.
Lemma ar_clause : forall f, ascii_reads (WithComponents f).
Proof.
  induction f as [|f IH]; [intros ws s a r H; discriminate|]. cbn [WithComponents]. unfold ComponentsItemNotLast, ComponentsItemLast, component_value, NameLower.
  pose proof ar_comment. ar.
Qed.
Lemma ar_module : ascii_reads Asn1Module.
Proof.
  pose proof ar_comment. assert (T : ascii_reads typ) by (intros ws s; apply ar_type). assert (W : ascii_reads clause) by (intros ws s; apply ar_clause).
  unfold Asn1Module, imports, ImportItem, Definitions, Choice, Enumerated, Grammar.Sequence, SimpleDefinition, KeyTypePairNotLast, KeyTypePairLast, EnumeratedItemNotLast,
    EnumeratedItemLast, NameCapital, NameLower. ar.
Qed.
Theorem accepted_ascii : forall s m, read_module s = Some m -> ascii_text s = true.
Proof.
  intros s m H. unfold read_module in H. destruct (andthen _ _ true s) as [[m' r]|] eqn:E; [|discriminate].
  assert (X : ascii_reads (x <- Asn1Module ;; end_of_input ;; ret x)).
  { apply ar_then; [apply ar_module|]. intros a. apply ar_then; [|intros; apply ar_ret]. apply ar_token. intros [|c u] b v F; [|discriminate]. injection F as _ <-. exists "". auto. }
  destruct (X _ _ _ _ E) as (t & -> & AT). assert (R : r = "").
  { unfold andthen, end_of_input, token in E. destruct (Asn1Module true (t ++ r)) as [[a u]|]; [|discriminate]. destruct (skip_blanks u); [|discriminate].
    injection E as _ <-. reflexivity. }
  subst r. rewrite string_app_nil. exact AT.
Qed.

Lemma utf8_ascii : forall t, unicode t -> ascii_text (utf8 t) = true -> forall c, In c t -> (c < 128)%N.
Proof.
  induction t as [|d t IH]; intros U H c C; [destruct C|]. rewrite utf8_cons, ascii_app in H. apply andb_true_iff in H as [H1 H2].
  destruct C as [<-|C]; [|apply IH; auto; intros x X; apply U; right; exact X].
  destruct (N.lt_ge_cases d 128) as [L|L]; [exact L|exfalso]. specialize (U d (or_introl eq_refl)). unfold scalar in U. unfold utf8_char in H1.
  destruct (N.ltb_spec d 128) as [|_]; [lia|].
  assert (F : forall n, (128 <= n < 256)%N -> ascii_char (ascii_of_N n) = false) by (intros n K; unfold ascii_char; rewrite N_ascii_embedding; lia).
  destruct (N.ltb_spec d 2048); [|destruct (N.ltb_spec d 65536)]; cbn [map string_of_list_ascii ascii_text] in H1; rewrite F in H1; try discriminate H1.
  - assert (d / 64 < 32)%N by (apply N.div_lt_upper_bound; lia). lia.
  - assert (d / 4096 < 16)%N by (apply N.div_lt_upper_bound; lia). lia.
  - assert (d / 262144 < 5)%N by (apply N.div_lt_upper_bound; lia). lia.
Qed.
Lemma utf8_codes : forall t, (forall c, In c t -> (c < 128)%N) -> codes (utf8 t) = t /\ ascii_text (utf8 t) = true.
Proof.
  induction t as [|c t IH]; intros H; [split; reflexivity|]. rewrite utf8_cons. pose proof (H c (or_introl eq_refl)) as L.
  destruct (IH (fun x X => H x (or_intror X))) as [I1 I2]. unfold utf8_char. apply N.ltb_lt in L as L'. rewrite L'. cbn [map string_of_list_ascii].
  change (String (ascii_of_N c) "" ++ utf8 t) with (String (ascii_of_N c) (utf8 t)). rewrite codes_cons, I1, N_ascii_embedding by lia.
  split; [reflexivity|]. cbn [ascii_text]. rewrite I2. unfold ascii_char. rewrite N_ascii_embedding, L' by lia. reflexivity.
Qed.
Theorem texts_agree : forall digit word t, standard digit word -> unicode t -> (forall c, In c t -> digit c = true -> (c < 128)%N) ->
  match read_module (utf8 t) with
  | Some m => exists v, parse_result digit word t (Some v) /\ module_value m v
  | None => forall v, ~ parse_result digit word t (Some v)
  end.
Proof.
  intros digit word t STD U D. destruct (forallb (fun c => c <? 128)%N t) eqn:F.
  - rewrite forallb_forall in F. destruct (utf8_codes t (fun c C => proj1 (N.ltb_lt _ _) (F c C))) as [E A]. pose proof (grammar_agrees digit word STD (utf8 t) A) as H.
    rewrite E in H. destruct (read_module (utf8 t)); [exact H|]. intros v V. pose proof (parse_unique _ _ _ _ _ H V). discriminate.
  - assert (N : ~ forall c, In c t -> (c < 128)%N).
    { intros N. assert (forallb (fun c => c <? 128)%N t = true) by (apply forallb_forall; intros c C; apply N.ltb_lt, N, C). congruence. }
    destruct (read_module (utf8 t)) eqn:R.
    + exfalso. apply N, (utf8_ascii t U). apply accepted_ascii in R. exact R.
    + intros v V. apply N. intros c C. destruct (accepted_characters digit word t v V c C) as [L|L]; [exact L|apply D; assumption].
Qed.

(** ** Running the grammar, for examples *)
Section Run.
Variable rls : string -> option rule.
(** [None]: not decided with this fuel. *)
Fixpoint run_peg (fuel : nat) (e : peg) (ws : bool) (x : state) : option (option (output * state)) :=
  match fuel with
  | O => None
  | S n =>
      match e with
      | Lit t => Some (option_map (fun y => (([], Text (codes t)), y)) (strip (codes t) (start ws x)))
      | Rx r => Some (option_map (fun y => (([], Text (between (start ws x) y)), y)) (hd_error (matches r (start ws x))))
      | Cat a b => match run_peg n a ws x with
                   | Some (Some (o, y)) => match run_peg n b ws y with
                                           | Some (Some (o', z)) => Some (Some (both o o', z))
                                           | r => r
                                           end
                   | r => r
                   end
      | Choose a b => match run_peg n a ws x with Some None => run_peg n b ws x | r => r end
      | Rep a => match run_peg n a ws x with
                 | Some (Some (o, y)) => match run_peg n (Rep a) ws y with
                                         | Some (Some (o', z)) => Some (Some (both o o', z))
                                         | _ => None
                                         end
                 | Some None => Some (Some (([], no_value), x))
                 | None => None
                 end
      | Optional a => match run_peg n a ws x with Some None => Some (Some (([], no_value), x)) | r => r end
      | Rule m => match rls m with
                  | Some r => match run_peg n (r_body r) (if r_noskipws r then false else ws) x with
                              | Some (Some (o, y)) => Some (Some (([], if r_object r then Object m (fst o) else snd o), y))
                              | u => u
                              end
                  | None => None
                  end
      | Attr m a => match run_peg n a ws x with
                    | Some (Some (o, y)) => Some (Some (([(m, snd o)], snd o), y))
                    | u => u
                    end
      | End => Some (match snd (start ws x) with [] => Some (([], no_value), start ws x) | _ => None end)
      end
  end.
Lemma run_peg_sound : forall n e ws x r, run_peg n e ws x = Some r -> Parses rls e ws x r.
Proof.
  induction n as [|n IH]; intros e ws x r H; [discriminate|]. cbn [run_peg] in H. destruct e as [t|re|a b|a b|a|a|m|m a|].
  - injection H as <-. apply P_lit.
  - injection H as <-. apply P_rx.
  - destruct (run_peg n a ws x) as [[[o y]|]|] eqn:A; try discriminate.
    + destruct (run_peg n b ws y) as [[[o' z]|]|] eqn:B; try discriminate; injection H as <-; [eapply P_cat|eapply P_cat_no2]; eauto.
    + injection H as <-. apply P_cat_no1; auto.
  - destruct (run_peg n a ws x) as [[o|]|] eqn:A; try discriminate; [injection H as <-; apply P_first; auto|apply P_second; auto].
  - destruct (run_peg n a ws x) as [[[o y]|]|] eqn:A; try discriminate.
    + destruct (run_peg n (Rep a) ws y) as [[[o' z]|]|] eqn:B; try discriminate. injection H as <-. eapply P_more; eauto.
    + injection H as <-. apply P_stop; auto.
  - destruct (run_peg n a ws x) as [[o|]|] eqn:A; try discriminate; injection H as <-; [apply P_there|apply P_absent]; auto.
  - destruct (rls m) as [u|] eqn:R; [|discriminate]. destruct (run_peg n (r_body u) _ x) as [[[o y]|]|] eqn:A; try discriminate; injection H as <-;
      [eapply P_rule|eapply P_rule_no]; eauto.
  - destruct (run_peg n a ws x) as [[[o y]|]|] eqn:A; try discriminate; injection H as <-; [apply P_attr|apply P_attr_no]; auto.
  - injection H as <-. apply P_end.
Qed.
End Run.
Definition run_result (fuel : nat) (digit word : N -> bool) (t : list N) : option (option value) :=
  option_map (fun r => match r with Some (([(_, v)], _), _) => Some v | _ => None end)
    (run_peg (rules digit word) fuel (Attr "module" (Rule "Asn1Module") # End) true (None, t)).
Lemma run_result_sound : forall n digit word t o, run_result n digit word t = Some o -> parse_result digit word t o.
Proof.
  intros n digit word t o H. unfold run_result in H. destruct (run_peg _ _ _ _ _) as [r|] eqn:E; [|discriminate]. injection H as <-.
  exists r. split; [eapply run_peg_sound, E|reflexivity].
Qed.
(** [\d] and [\w] with the Arabic-Indic digits. *)
Definition digit2 (c : N) : bool := d09 c || range 1632 1641 c.
Definition word2 (c : N) : bool := az c || AZ c || d09 c || (c =? 95)%N || range 1632 1641 c.
Lemma standard2 : standard digit2 word2.
Proof.
  intros c C. unfold digit2, word2. assert (R : range 1632 1641 c = false) by (unfold range; apply andb_false_iff; left; apply N.leb_gt; lia).
  rewrite R, !orb_false_r. split; reflexivity.
Qed.
Definition foreign_text : list N := (codes "Module-a" ++ [1635] ++ codes " DEFINITIONS AUTOMATIC TAGS ::= BEGIN M ::= BOOLEAN END")%list%N.
Lemma foreign_accepted : exists v, parse_result digit2 word2 foreign_text (Some v).
Proof. eexists. apply (run_result_sound 60). vm_compute. reflexivity. Qed.
Lemma foreign_texts : exists digit word t v, standard digit word /\ parse_result digit word t (Some v) /\ In 1635%N t.
Proof.
  destruct foreign_accepted as (v & P). exists digit2, word2, foreign_text, v. split; [exact standard2|]. split; [exact P|].
  unfold foreign_text. apply in_or_app. right. left. reflexivity.
Qed.
