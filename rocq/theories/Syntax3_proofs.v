(** * The grammar reads exactly the spellings of modules: definitions,
    imports, modules *)
From Verif Require Import Base PyNum PyFloat PyStr Ast Grammar Spec_Grammar Spec_Syntax Str_proofs
  Check_proofs Lex_proofs Token_proofs Syntax_proofs Syntax2_proofs.
Open Scope string_scope.

(** ** Definitions *)
Lemma definition_inv : forall s d r, Definitions true s = Some (d, r) -> definition_at d s r.
Proof.
  unfold Definitions, Choice, Enumerated, Sequence, SimpleDefinition. intros s d r H.
  repeat (apply orelse_inv in H as [H | [_ H]]); inv; unfold definition_at; cbn [def_name].
  - eexists. split; [eassumption|]. eexists. split; [eassumption|]. eexists. split; [eassumption|].
    eexists. split; [|eassumption]. apply members_chain.
    eapply chain_inv; [apply member_sep_inv|apply member_fin_inv|eassumption|eassumption].
  - eexists. split; [eassumption|]. eexists. split; [eassumption|]. eexists. split; [eassumption|].
    eexists. split; [|eassumption]. apply items_chain.
    eapply chain_inv; [apply enum_sep_inv|apply enum_fin_inv|eassumption|eassumption].
  - eexists. split; [eassumption|]. eexists. split; [eassumption|]. eexists. split; [eassumption|].
    eexists. split; [|eassumption]. apply members_chain.
    eapply chain_inv; [apply member_sep_inv|apply member_fin_inv|eassumption|eassumption].
  - match goal with H : typ _ _ = _ |- _ => apply typ_inv in H end. build.
Qed.

Lemma word_other : forall t t' s r, solid t' -> word t' s r -> drop_prefix t (t' ++ r) = None -> lit t true s = None.
Proof.
  intros t t' s r S (m & B & ->) D. unfold lit, token. rewrite (blanks_skip _ _ B), solid_skip by exact S.
  rewrite D. reflexivity.
Qed.

(** A definition begins with a name and "::=". *)
Lemma definition_head : forall d s r, definition_at d s r ->
  exists m, NameCapital true s = Some (def_name d, m) /\ nb m = Some ":"%char.
Proof.
  intros d s r (m & C & H). exists m. split; [apply capital_intro, C|].
  destruct d; cbn in H; destruct H as (m' & H & _); (eapply word_nb; [reflexivity|exact H]).
Qed.
Lemma definition_nb : forall d s r, definition_at d s r -> exists c, nb s = Some c /\ is_upper c = true.
Proof. intros d s r (m & C & _). eapply capital_nb, C. Qed.
Lemma not_definition : forall s n m c d r, NameCapital true s = Some (n, m) -> nb m = Some c -> c <> ":"%char ->
  ~ definition_at d s r.
Proof.
  intros s n m c d r H N C D. apply definition_head in D as (m' & D & N'). rewrite H in D. injection D as _ <-.
  congruence.
Qed.

Definition next_def (s : string) : Prop := follow s /\ exists c, nb s = Some c /\ is_upper c = true.

Lemma definition_follow : forall d s r, definition_at d s r -> next_def s.
Proof.
  intros d s r H. split; [|eapply definition_nb, H]. split.
  - intros k x I ->. simpl in I.
    repeat (destruct I as [<- | I]; [refine (not_definition _ _ _ _ _ _ _ _ _ H); [reflexivity|reflexivity|discriminate]|]). destruct I.
  - intros x ->. destruct (definition_nb _ _ _ H) as (c & N & U). injection N as <-. discriminate U.
Qed.
Lemma END_follow : forall s r, word "END" s r -> next_def s.
Proof.
  intros s r H. split; [|exists "E"%char; split; [eapply word_nb; [reflexivity|exact H]|reflexivity]]. split.
  - intros k x I E. apply lit_true_intro in H; [|apply solid_str; reflexivity]. subst s. simpl in I.
    repeat (destruct I as [<- | I]; [discriminate H|]). destruct I.
  - intros x ->. apply word_nb in H; [|reflexivity]. discriminate H.
Qed.

Lemma simple_not : forall kw c tail t s r, In tail keyword_tails ->
  (forall x, exists y, NameCapital false (kw ++ x) = Some (c, tail ++ y)) ->
  (forall x, drop_prefix kw ("REAL" ++ x) = None) -> (forall x, drop_prefix kw ("INTEGER" ++ x) = None) ->
  (forall x, drop_prefix kw ("NULL" ++ x) = None) -> (forall x, drop_prefix kw ("BOOLEAN" ++ x) = None) ->
  (forall x, drop_prefix kw ("IA5String" ++ x) = None) -> (forall x, drop_prefix kw ("NumericString" ++ x) = None) ->
  (forall x, drop_prefix kw ("SEQUENCE (" ++ x) = None) ->
  type_at t s r -> follow r -> forall x, s <> String " " (kw ++ x).
Proof.
  intros kw c tail t s r I K D1 D2 D3 D4 D5 D6 D7 T F x E. subst s.
  assert (Q : forall y, (exists z, kw ++ x = y ++ z /\ forall u, drop_prefix kw (y ++ u) = None) -> False).
  { intros y (z & E & Q). specialize (Q z). rewrite <- E, drop_prefix_app in Q. discriminate. }
  destruct t as [[[]|]|[[]|]| | |[] n|n e|n]; cbn [type_at] in T; destruct T as (m & E1 & T); injection E1 as E1;
    rewrite <- E1 in T.
  - destruct T as (m2 & E2 & _). apply (text_split "REAL" "(") in E2. eapply Q. eexists. split; [exact E2|exact D1].
  - eapply Q. eexists. split; [exact T|exact D1].
  - destruct T as (m2 & E2 & _). apply (text_split "INTEGER" "(") in E2. eapply Q. eexists. split; [exact E2|exact D2].
  - eapply Q. eexists. split; [exact T|exact D2].
  - eapply Q. eexists. split; [exact T|exact D3].
  - eapply Q. eexists. split; [exact T|exact D4].
  - destruct T as (m2 & E2 & _). apply (text_split "IA5String" " (SIZE (") in E2. eapply Q. eexists. split; [exact E2|exact D5].
  - destruct T as (m2 & E2 & _). apply (text_split "NumericString" " (SIZE (") in E2. eapply Q. eexists. split; [exact E2|exact D6].
  - destruct T as (m2 & E2 & _). apply (text_split "SEQUENCE (" "SIZE (") in E2. eapply Q. eexists. split; [exact E2|exact D7].
  - apply capital_here_intro in T. destruct (K x) as (y & K'). rewrite K' in T. injection T as _ T. destruct F as [F _].
    apply (F tail y); [exact I|symmetry; exact T].
Qed.

Lemma simple_lit_fail : forall kw m m1 t r, word "::=" m m1 -> type_at t m1 r ->
  (forall x, m1 <> String " " (kw ++ x)) -> lit ("::= " ++ kw) true m = None.
Proof.
  intros kw m m1 t r (b & B & E) T N. unfold lit, token. rewrite (blanks_skip _ _ B).
  assert (S : skip_blanks b = b) by (rewrite E; reflexivity). rewrite S. rewrite E.
  destruct (drop_prefix ("::= " ++ kw) ("::=" ++ m1)) as [x|] eqn:D; [|reflexivity].
  apply drop_prefix_some in D. simpl in D. injection D as D. destruct (N x). exact D.
Qed.

Lemma definition_intro : forall d s r, next_def r -> definition_at d s r -> Definitions true s = Some (d, r).
Proof.
  intros d s r [F (ch & NB & UP)] (m & C & H). unfold Definitions, Choice, Enumerated, Sequence, SimpleDefinition.
  assert (C' := capital_intro _ _ _ C).
  destruct d as [n c l|n c l|n c l|n t c]; cbn [def_name] in *.
  - destruct H as (m1 & H1 & m2 & H2 & m3 & H3 & H4).
    do 2 (apply orelse_r; [eapply andthen_next; [exact C'|]; apply andthen_fail;
      refine (word_other _ _ _ _ _ H1 _); [apply solid_str; reflexivity|reflexivity]|]).
    apply orelse_l. words. destruct (members_first _ _ _ H3) as (x & X1 & X2).
    eapply andthen_intro; [apply comment_opt_intro; [exact H2|left]|].
    { rewrite X1. intros E. injection E as ->. discriminate X2. }
    destruct (members_intro _ _ _ _ H3 H4) as (l' & y & m' & -> & M & P).
    eapply andthen_intro; [exact M|]. eapply andthen_intro; [exact P|]. words. reflexivity.
  - destruct H as (m1 & H1 & m2 & H2 & m3 & H3 & H4).
    apply orelse_l. words. destruct (members_first _ _ _ H3) as (x & X1 & X2).
    eapply andthen_intro; [apply comment_opt_intro; [exact H2|left]|].
    { rewrite X1. intros E. injection E as ->. discriminate X2. }
    destruct (members_intro _ _ _ _ H3 H4) as (l' & y & m' & -> & M & P).
    eapply andthen_intro; [exact M|]. eapply andthen_intro; [exact P|]. words. reflexivity.
  - destruct H as (m1 & H1 & m2 & H2 & m3 & H3 & H4).
    apply orelse_r; [eapply andthen_next; [exact C'|]; apply andthen_fail;
      refine (word_other _ _ _ _ _ H1 _); [apply solid_str; reflexivity|reflexivity]|].
    apply orelse_l. words. destruct (enums_first _ _ _ H3) as (x & X1 & X2).
    eapply andthen_intro; [apply comment_opt_intro; [exact H2|left]|].
    { rewrite X1. intros E. injection E as ->. discriminate X2. }
    destruct (enums_intro _ _ _ _ H3 H4) as (l' & y & m' & -> & M & P).
    eapply andthen_intro; [exact M|]. eapply andthen_intro; [exact P|]. words. reflexivity.
  - destruct H as (m1 & H1 & m2 & H2 & H3).
    assert (F2 : follow m2) by (eapply comment_opt_follow; eassumption).
    apply orelse_r.
    { eapply andthen_next; [exact C'|]. apply andthen_fail. eapply (simple_lit_fail "CHOICE {"); [exact H1|exact H2|].
      intros x E. eapply (simple_not "CHOICE" "C" "HOICE") with (x := " {" ++ x);
        [simpl; auto 12|intros z; eexists; reflexivity|try reflexivity..|exact H2|exact F2|exact E]. }
    apply orelse_r.
    { eapply andthen_next; [exact C'|]. apply andthen_fail. eapply (simple_lit_fail "ENUMERATED {"); [exact H1|exact H2|].
      intros x E. eapply (simple_not "ENUMERATED" "E" "NUMERATED") with (x := " {" ++ x);
        [simpl; auto 12|intros z; eexists; reflexivity|try reflexivity..|exact H2|exact F2|exact E]. }
    apply orelse_r.
    { eapply andthen_next; [exact C'|]. apply andthen_fail. eapply (simple_lit_fail "SEQUENCE {"); [exact H1|exact H2|].
      intros x E. eapply (simple_not "SEQUENCE {" "S" "EQUENCE") with (x := x);
        [simpl; auto 12|intros z; exists (" {" ++ z); reflexivity|try reflexivity..|exact H2|exact F2|exact E]. }
    words. eapply andthen_intro; [apply typ_intro; [exact F2|exact H2]|].
    eapply andthen_intro; [apply comment_opt_intro; [exact H3|left]|reflexivity].
    rewrite NB. intros E. injection E as ->. discriminate UP.
Qed.

Lemma definition_strict : forall d s r, definition_at d s r -> (String.length r < String.length s)%nat.
Proof.
  intros d s r H. refine (seq_strict _ _ _ _ _ _ H); [intros s' r'; apply capital_len|].
  assert (M : forall l, shrinks (members_at l)).
  { clear. induction l as [|m l IH]; [apply shr_false|]. cbn [members_at].
    destruct (m_with m), l; auto 10 with shr. }
  destruct d as [n c l|n c l|n c l|n t c].
  - auto 10 with shr.
  - auto 10 with shr.
  - do 2 (apply shr_seq; [auto with shr|]). apply shr_seq; [|auto with shr]. apply shr_items. auto with shr.
  - auto 10 with shr.
Qed.
Lemma Definitions_consumes : consumes Definitions true.
Proof. intros s d r H. apply definition_inv in H. eapply definition_strict, H. Qed.
Lemma Definitions_END : forall s r, word "END" s r -> Definitions true s = None.
Proof.
  intros s r (m & B & E).
  assert (N : NameCapital true s = Some ("E", "ND" ++ r)).
  { unfold NameCapital, name_with, token. rewrite (blanks_skip _ _ B), E. reflexivity. }
  unfold Definitions, Choice, Enumerated, Sequence, SimpleDefinition.
  repeat apply orelse_none; (eapply andthen_next; [exact N|]); apply andthen_fail, lit_true_fail;
    (discriminate || reflexivity).
Qed.
Lemma definitions_inv : forall s d ds m r, Definitions true s = Some (d, m) -> many Definitions true m = Some (ds, r) ->
  all_at definition_at (d :: ds) s r.
Proof.
  intros s d ds m r H M. exists m. split; [apply definition_inv, H|]. apply many_inv in M. clear d s H.
  revert m M. induction ds as [|d ds IH]; intros m M; [exact M|]. destruct M as (m' & H & M).
  exists m'. split; [apply definition_inv, H|apply IH, M].
Qed.
Lemma definitions_next : forall ds s r x, all_at definition_at ds s r -> word "END" r x -> next_def s.
Proof.
  intros [|d ds] s r x H E; [rewrite H; eapply END_follow, E|]. destruct H as (m & H & _). eapply definition_follow, H.
Qed.
Lemma definitions_intro : forall d ds s r x, all_at definition_at (d :: ds) s r -> word "END" r x ->
  exists m, Definitions true s = Some (d, m) /\ many Definitions true m = Some (ds, r).
Proof.
  intros d ds s r x (m & H & R) E. exists m. split.
  - apply definition_intro; [|exact H]. eapply definitions_next; eassumption.
  - clear d s H. apply many_intro; [apply Definitions_consumes| |eapply Definitions_END, E].
    revert m R. induction ds as [|d ds IH]; intros m R; [exact R|]. destruct R as (m' & H & R).
    exists m'. split; [|apply IH, R]. apply definition_intro; [|exact H]. eapply definitions_next; eassumption.
Qed.

(** ** Imports *)
Definition comma_name : parser string := (lit "," ;; NameCapital)%string.
Lemma comma_name_consumes : consumes comma_name true.
Proof. intros s a r H. unfold comma_name in H. inv. match goal with H : word _ _ _ |- _ => apply word_len in H end.
  match goal with H : capital _ _ _ |- _ => apply capital_len in H end. lia. Qed.
Lemma names_inv : forall ns n s m r, NameCapital true s = Some (n, m) -> reads comma_name true ns m r ->
  names_at (n :: ns) s r.
Proof.
  induction ns as [|n' ns IH]; intros n s m r H R; cbn [names_at reads] in *.
  - subst. inv. exists r. split; [assumption|reflexivity].
  - destruct R as (m' & C & R). unfold comma_name in C. apply andthen_inv in C as (u & q & L & C). inv.
    eexists. split; [eassumption|]. eexists. split; [eassumption|]. apply (IH n' q m' r); [apply capital_intro; assumption|exact R].
Qed.
Lemma names_intro : forall ns n s r, names_at (n :: ns) s r ->
  exists m, NameCapital true s = Some (n, m) /\ reads comma_name true ns m r.
Proof.
  induction ns as [|n' ns IH]; intros n s r H.
  - destruct H as (m & H & E). exists m. split; [apply capital_intro, H|exact E].
  - destruct H as (m & H & m2 & W & H'). exists m. split; [apply capital_intro, H|].
    apply IH in H' as (m3 & C & R). exists m3. split; [|exact R]. unfold comma_name. words. exact C.
Qed.
Lemma names_strict : forall l s r, names_at l s r -> (String.length r < String.length s)%nat.
Proof.
  induction l as [|n l IH]; intros s r H; [destruct H|]. destruct H as (m & H & R). apply capital_len in H.
  destruct l as [|n' l]; [rewrite <- R; exact H|]. destruct R as (m' & W & R). apply word_len in W. apply IH in R. lia.
Qed.
Lemma names_nb : forall l s r, names_at l s r -> exists c, nb s = Some c /\ is_upper c = true.
Proof. intros [|n l] s r H; [destruct H|]. destruct H as (m & H & _). eapply capital_nb, H. Qed.

Lemma import_inv : forall s i r, ImportItem true s = Some (i, r) -> import_at i s r.
Proof.
  unfold ImportItem. fold comma_name. intros s i r H.
  apply andthen_inv in H as (n & m1 & N & H). apply andthen_inv in H as (ns & m2 & M & H). apply many_inv in M. 
  unfold import_at. inv. cbn [imp_names imp_module imp_comment].
  eexists. split; [eapply names_inv; [apply capital_intro; eassumption|exact M]|]. build.
Qed.
Lemma import_intro : forall i s r, import_at i s r -> nb r <> Some "-"%char -> ImportItem true s = Some (i, r).
Proof.
  intros [ns m c] s r (m1 & N & m2 & W & m3 & L & C) NB. cbn [imp_names imp_module imp_comment] in *.
  destruct ns as [|n ns]; [destruct N|]. apply names_intro in N as (m0 & N & R).
  unfold ImportItem. fold comma_name. eapply andthen_intro; [exact N|]. eapply andthen_intro.
  { apply many_intro; [apply comma_name_consumes|exact R|]. apply andthen_fail.
    eapply lit_nb_fail; [eapply word_nb; [|exact W]; reflexivity|discriminate|reflexivity]. }
  words. eapply andthen_intro; [apply comment_opt_intro; [exact C|left; exact NB]|reflexivity].
Qed.
Lemma import_strict : forall i s r, import_at i s r -> (String.length r < String.length s)%nat.
Proof.
  intros i s r H. refine (seq_strict _ _ _ _ _ _ H); [apply names_strict|]. auto 8 with shr.
Qed.
Lemma import_consumes : consumes ImportItem true.
Proof. intros s i r H. apply import_inv in H. eapply import_strict, H. Qed.
Lemma import_nb : forall i s r, import_at i s r -> exists c, nb s = Some c /\ is_upper c = true.
Proof. intros i s r (m & H & _). eapply names_nb, H. Qed.
Lemma upper_not_dash : forall s c, nb s = Some c -> is_upper c = true -> nb s <> Some "-"%char.
Proof. intros s c H U E. rewrite H in E. injection E as ->. discriminate U. Qed.

Lemma imports_inv : forall s l c r, imports true s = Some ((l, c), r) ->
  l <> [] /\ (word "IMPORTS" >> all_at import_at l >> word ";" >> comment_opt_at c) s r.
Proof.
  unfold imports. intros s l c r H. apply andthen_inv in H as (u & m1 & L & H).
  apply andthen_inv in H as (i & m2 & I & H). apply andthen_inv in H as (is & m3 & M & H). inv.
  split; [discriminate|]. eexists. split; [eassumption|]. exists m3. split; [|build].
  exists m2. split; [apply import_inv, I|]. apply many_inv in M. clear - M.
  revert m2 M. induction is as [|i is IH]; intros m2 M; [exact M|]. destruct M as (m' & H & M).
  exists m'. split; [apply import_inv, H|apply IH, M].
Qed.
Lemma imports_next : forall l s r x, all_at import_at l s r -> word ";" r x -> nb s <> Some "-"%char.
Proof.
  intros [|i l] s r x H E.
  - rewrite H. apply word_nb in E; [|reflexivity]. rewrite E. discriminate.
  - destruct H as (m & H & _). destruct (import_nb _ _ _ H) as (c & C & U). eapply upper_not_dash; eassumption.
Qed.
Lemma imports_intro : forall l c s r, l <> [] -> nb r <> Some "-"%char ->
  (word "IMPORTS" >> all_at import_at l >> word ";" >> comment_opt_at c) s r -> imports true s = Some ((l, c), r).
Proof.
  intros [|i l] c s r N NB (m1 & H1 & m2 & H2 & m3 & H3 & H4); [congruence|]. destruct H2 as (m & HI & HR). unfold imports. words.
  eapply andthen_intro; [apply import_intro; [exact HI|eapply imports_next; eassumption]|].
  eapply andthen_intro.
  { apply many_intro; [apply import_consumes| |].
    - instantiate (1 := m2). instantiate (1 := l). clear - HR H3. revert m HR.
      induction l as [|i l IH]; intros m HR; [exact HR|].
      destruct HR as (m' & HI & HR). exists m'. split; [|apply IH, HR].
      apply import_intro; [exact HI|eapply imports_next; eassumption].
    - apply andthen_fail, NameCapital_fail. intros d D. apply word_nb in H3; [|reflexivity]. rewrite H3 in D.
      injection D as <-. reflexivity. }
  words. eapply andthen_intro; [apply comment_opt_intro; [exact H4|left; exact NB]|reflexivity].
Qed.

(** ** Modules *)
Lemma module_inv : forall s m r, Asn1Module true s = Some (m, r) -> module_at m s r.
Proof.
  unfold Asn1Module. intros s m r H. apply andthen_inv in H as (u1 & m1 & L1 & H). apply andthen_inv in H as (n & m2 & L2 & H).
  apply andthen_inv in H as (u2 & m3 & L3 & H). apply andthen_inv in H as (c & m4 & L4 & H).
  apply andthen_inv in H as (i & m5 & L5 & H). apply andthen_inv in H as (d & m6 & L6 & H).
  apply andthen_inv in H as (ds & m7 & L7 & H).  apply andthen_inv in H as (u3 & m8 & L8 & H).
  assert (D := definitions_inv _ _ _ _ _ L6 L7). clear L6 L7. inv.
  apply opt_cases in L5 as [([l ci] & -> & O) | (-> & -> & _)]; unfold module_at, imports_at;
    cbn [mod_name mod_comment mod_imports mod_comment_import mod_defs].
  - apply imports_inv in O as [N O]. do 4 (eexists; split; [eassumption|]). exists m5. split.
    + destruct l as [|x l]; [congruence|]. exact O.
    + exists m7. split; [split; [discriminate|exact D]|exact L8].
  - do 4 (eexists; split; [eassumption|]). exists m4. split; [split; reflexivity|].
    exists m7. split; [split; [discriminate|exact D]|exact L8].
Qed.
Lemma module_intro : forall s m r, module_at m s r -> Asn1Module true s = Some (m, r).
Proof.
  intros s [n c l ci ds] r H. unfold module_at, imports_at in H.
  cbn [mod_name mod_comment mod_imports mod_comment_import mod_defs] in H.
  destruct H as (m1 & H1 & m2 & H2 & m3 & H3 & m4 & H4 & m5 & H5 & m6 & (ND & H6) & H7).
  destruct ds as [|d ds]; [congruence|].
  assert (NX := definitions_next _ _ _ _ H6 H7). destruct NX as (_ & ch & NB & UP).
  assert (D : exists y z, definition_at y m5 z) by (destruct H6 as (z & H6 & _); eauto).
  destruct (definitions_intro _ _ _ _ _ H6 H7) as (m' & D1 & D2).
  unfold Asn1Module. words.
  assert (O : exists o, opt imports true m4 = Some (o, m5)
    /\ (match o with Some (l, ci) => mkmodule n c l ci (d :: ds) | None => mkmodule n c [] None (d :: ds) end)
       = mkmodule n c l ci (d :: ds)).
  { destruct l as [|i l].
    - destruct H5 as [-> ->]. exists None. split; [|reflexivity]. apply opt_none. apply andthen_fail.
      destruct (lit "IMPORTS" true m5) as [[u x]|] eqn:E; [|reflexivity]. apply lit_true_inv in E as (b & B & ->).
      destruct D as (y & z & D). exfalso. refine (not_definition _ _ _ _ _ _ _ _ _ D).
      + unfold NameCapital, name_with, token. rewrite (blanks_skip _ _ B). reflexivity.
      + reflexivity.
      + discriminate.
    - exists (Some (i :: l, ci)). split; [|reflexivity]. apply opt_some, imports_intro; [discriminate| |exact H5].
      eapply upper_not_dash; eassumption. }
  destruct O as (o & O1 & O2).
  eapply andthen_intro.
  { apply comment_opt_intro; [exact H4|left]. destruct l as [|i l].
    - destruct H5 as [_ <-]. eapply upper_not_dash; eassumption.
    - destruct H5 as (q & W & _). apply word_nb in W; [|reflexivity]. rewrite W. discriminate. }
  eapply andthen_intro; [exact O1|]. eapply andthen_intro; [exact D1|]. eapply andthen_intro; [exact D2|].
  words. rewrite O2. reflexivity.
Qed.

Lemma end_of_input_iff : forall s r, end_of_input true s = Some (tt, r) -> r = "" /\ blanks s "".
Proof.
  unfold end_of_input, token. intros s r H. destruct (skip_blanks s) eqn:E; [|discriminate]. injection H as <-.
  split; [reflexivity|]. rewrite <- E. apply skip_blanks_step.
Qed.

Lemma read_module_iff : forall s m, read_module s = Some m <-> spells s m.
Proof.
  unfold read_module, spells. intros s m. split.
  - destruct ((m <- Asn1Module ;; end_of_input ;; ret m) true s) as [[m' r]|] eqn:E; [|discriminate].
    intros H. injection H as ->. apply andthen_inv in E as (a & x & A & E). apply andthen_inv in E as ([] & y & B & E).
    injection E as -> ->. apply end_of_input_iff in B as [-> B]. exists x. split; [apply module_inv, A|exact B].
  - intros (x & A & B). apply module_intro in A.
    unfold andthen. rewrite A. unfold end_of_input, token. rewrite (blanks_skip _ _ B). reflexivity.
Qed.

Lemma spelling_unique : forall s m m', spells s m -> spells s m' -> m = m'.
Proof. intros s m m' A B. apply read_module_iff in A, B. congruence. Qed.
