(** * The grammar reads exactly the spellings of modules *)
From Verif Require Import Base PyNum PyFloat PyStr Ast Grammar Spec_Grammar Spec_Syntax Str_proofs
  Lex_proofs Token_proofs.
Open Scope string_scope.

Lemma andthen_next : forall A B (p : parser A) (f : A -> parser B) ws s a m,
  p ws s = Some (a, m) -> f a ws m = None -> andthen p f ws s = None.
Proof. intros A B p f ws s a m H K. unfold andthen. rewrite H. exact K. Qed.
Lemma orelse_none : forall A (p q : parser A) ws s, p ws s = None -> q ws s = None -> orelse p q ws s = None.
Proof. intros A p q ws s H K. unfold orelse. rewrite H. exact K. Qed.
Lemma opt_cases : forall A (p : parser A) ws s o r, opt p ws s = Some (o, r) ->
  (exists a, o = Some a /\ p ws s = Some (a, r)) \/ (o = None /\ r = s /\ p ws s = None).
Proof. intros A p ws s o r H. apply opt_inv in H. destruct o; [left; eauto|right; tauto]. Qed.
Lemma assoc_l : forall (P Q R : step) s r, ((P >> Q) >> R) s r <-> (P >> Q >> R) s r.
Proof.
  intros P Q R s r. split.
  - intros (m & (m' & A & B) & C). exists m'. split; [exact A|]. exists m. auto.
  - intros (m & A & m' & B & C). exists m'. split; [exists m; auto|exact C].
Qed.

Ltac inv :=
  repeat match goal with
  | H : andthen _ _ _ _ = Some _ |- _ => apply andthen_inv in H as (? & ? & ? & H); cbv beta in H
  | H : ret _ _ _ = Some _ |- _ => injection H; clear H; intros; subst
  | H : lit _ true _ = Some _ |- _ => apply lit_true_inv in H
  | H : lit _ false _ = Some _ |- _ => apply lit_false_inv in H
  | H : NameLower true _ = Some _ |- _ => apply lower_case_inv in H
  | H : NameCapital true _ = Some _ |- _ => apply capital_inv in H
  | H : NameCapital false _ = Some _ |- _ => apply capital_here_inv in H
  | H : INT true _ = Some _ |- _ => apply INT_true_inv in H
  | H : INT false _ = Some _ |- _ => apply INT_inv in H; unfold base in H
  | H : STRICTFLOAT true _ = Some _ |- _ => apply STRICTFLOAT_true_inv in H
  | H : STRICTFLOAT false _ = Some _ |- _ => apply STRICTFLOAT_inv in H; unfold base in H
  | H : opt Asn1Comment _ _ = Some _ |- _ => apply comment_opt_inv in H
  end.
Ltac build := repeat (eexists; split; [eassumption|]); try eassumption.

(** ** Types *)
Lemma text_app : forall a b s m r, text a s m -> text b m r -> text (a ++ b) s r.
Proof. unfold text. intros a b s m r -> ->. rewrite string_app_assoc. reflexivity. Qed.
Lemma text_split : forall a b s r, text (a ++ b) s r -> text a s (b ++ r).
Proof. unfold text. intros a b s r ->. rewrite string_app_assoc. reflexivity. Qed.

Lemma type_inv : forall f ws s t r, Asn1Type f ws s = Some (t, r) -> type_at t s r.
Proof.
  induction f as [|f IH]; intros ws s t r H; [discriminate|]. cbn [Asn1Type] in H. unfold noskipws in H.
  repeat (apply orelse_inv in H as [H | [_ H]]).
  - inv. match goal with H : opt _ _ _ = Some _ |- _ => apply opt_cases in H as [([b e] & -> & O) | (-> & -> & _)] end.
    + inv.
      cbn [type_at]. eexists. split; [eassumption|]. eexists. split; [eapply (text_app "REAL" "("); eassumption|]. build.
    + cbn [type_at]. build.
  - inv. match goal with H : opt _ _ _ = Some _ |- _ => apply opt_cases in H as [([b e] & -> & O) | (-> & -> & _)] end.
    + inv.
      cbn [type_at]. eexists. split; [eassumption|]. eexists. split; [eapply (text_app "INTEGER" "("); eassumption|]. build.
    + cbn [type_at]. build.
  - inv. cbn [type_at]. build.
  - inv. cbn [type_at]. build.
  - inv. unfold Asn1String in H. apply andthen_inv in H as (k & m & K & H).
    apply orelse_inv in K as [K | [_ K]]; inv; cbn [type_at].
    + eexists. split; [eassumption|]. eexists. split; [eapply (text_app "IA5String" " (SIZE ("); eassumption|]. build.
    + eexists. split; [eassumption|]. eexists. split; [eapply (text_app "NumericString" " (SIZE ("); eassumption|]. build.
  - inv. match goal with H : Asn1Type _ _ _ = _ |- _ => apply IH in H end. cbn [type_at]. build.
  - inv. cbn [type_at]. build.
Qed.

(** What may follow a type: nothing that would make a name a keyword or
    give the type a range. *)
Definition keyword_tails := ["EAL"; "NTEGER"; "ULL"; "OOLEAN"; "A5String"; "String (SIZE ("; "EQUENCE";
  "HOICE"; "NUMERATED"]%list.
Definition follow (r : string) : Prop :=
  (forall k x, In k keyword_tails -> r <> k ++ x) /\ (forall x, r = String "(" x -> exists y, x = String "W" y).

Lemma calm : forall c x, is_upper c = false -> c <> "("%char -> follow (String c x).
Proof.
  intros c x U P. split.
  - intros k y I E. assert (K : exists d z, k = String d z /\ is_upper d = true).
    { repeat (destruct I as [<- | I]; [eexists; eexists; split; [reflexivity|reflexivity]|]). destruct I. }
    destruct K as (d & z & -> & K). injection E as -> _. congruence.
  - intros y E. injection E as -> _. congruence.
Qed.
Lemma blank_calm : forall c, is_blank c = true -> is_upper c = false /\ c <> "("%char.
Proof. intros [[] [] [] [] [] [] [] []] H; try discriminate H; split; try reflexivity; discriminate. Qed.
Lemma blanks_cases : forall s r, blanks s r -> s = r \/ exists c x, s = String c x /\ is_blank c = true.
Proof.
  intros s r (b & B & ->). destruct b as [|c b]; [auto|]. right. exists c, (b ++ r). split; [reflexivity|].
  simpl in B. apply andb_true_iff in B as [B _]. rewrite is_blank_char. exact B.
Qed.
Lemma word_calm : forall c t s r, is_upper c = false -> c <> "("%char -> word (String c t) s r -> follow s.
Proof.
  intros c t s r U P (m & B & E). destruct (blanks_cases _ _ B) as [-> | (d & x & -> & D)].
  - rewrite E. apply calm; assumption.
  - apply calm; apply blank_calm, D.
Qed.
Lemma comment_calm : forall c s r, comment_at c s r -> follow s.
Proof. intros c s r H. destruct (comment_first _ _ _ H) as (x & [-> | ->]); apply calm; (reflexivity || discriminate). Qed.
Lemma with_calm : forall t s r, word ("(W" ++ t) s r -> follow s.
Proof.
  intros t s r (m & B & E). destruct (blanks_cases _ _ B) as [-> | (d & x & -> & D)]; [|apply calm; apply blank_calm, D].
  rewrite E. split.
  - intros k y I H. assert (K : exists d z, k = String d z /\ is_upper d = true).
    { repeat (destruct I as [<- | I]; [eexists; eexists; split; [reflexivity|reflexivity]|]). destruct I. }
    destruct K as (d & z & -> & K). injection H as <- _. discriminate K.
  - intros x H. injection H as <-. eexists. reflexivity.
Qed.
Lemma comment_opt_follow : forall c s r, comment_opt_at c s r -> follow r -> follow s.
Proof. intros [c|] s r H F; [eapply comment_calm, H|]. simpl in H. unfold nothing in H. subst. exact F. Qed.

Lemma INT_false_fail : forall s, not_next numeric_char s -> INT false s = None.
Proof.
  intros s N. destruct (INT false s) as [[z r]|] eqn:E; [|reflexivity]. apply INT_inv in E.
  destruct (int_here_first _ _ _ E) as (c & x & H & K). unfold base in H. rewrite H in N. simpl in N. congruence.
Qed.
Lemma FLOAT_false_fail : forall s, not_next numeric_char s -> STRICTFLOAT false s = None.
Proof.
  intros s N. destruct (STRICTFLOAT false s) as [[z r]|] eqn:E; [|reflexivity]. apply STRICTFLOAT_inv in E.
  destruct (float_here_first _ _ _ E) as (c & x & H & K). unfold base in H. rewrite H in N. simpl in N. congruence.
Qed.
Lemma numeric_skip : forall s c x, blanks s (String c x) -> numeric_char c = true -> nb s = Some c.
Proof. intros s c x B K. rewrite (blanks_nb _ _ B). apply nb_char, numeric_not_blank, K. Qed.
Lemma INT_true_fail : forall s, (forall c, nb s = Some c -> numeric_char c = false) -> INT true s = None.
Proof.
  intros s N. destruct (INT true s) as [[z r]|] eqn:E; [|reflexivity]. apply INT_true_inv in E as (m & B & E).
  destruct (int_here_first _ _ _ E) as (c & x & -> & K). specialize (N _ (numeric_skip _ _ _ B K)). congruence.
Qed.
Lemma FLOAT_true_fail : forall s, (forall c, nb s = Some c -> numeric_char c = false) -> STRICTFLOAT true s = None.
Proof.
  intros s N. destruct (STRICTFLOAT true s) as [[z r]|] eqn:E; [|reflexivity]. apply STRICTFLOAT_true_inv in E as (m & B & E).
  destruct (float_here_first _ _ _ E) as (c & x & -> & K). specialize (N _ (numeric_skip _ _ _ B K)). congruence.
Qed.

(** A capital name that begins with a keyword stops inside it. *)
Lemma lit_false_none : forall t s, (forall x, s <> t ++ x) -> lit t false s = None.
Proof.
  intros t s N. destruct (lit t false s) as [[u r]|] eqn:E; [|reflexivity]. apply lit_false_inv in E. destruct (N _ E).
Qed.
Lemma name_no_keyword : forall kw c tail n s r,
  (forall x, NameCapital false (kw ++ x) = Some (c, tail ++ x)) -> In tail keyword_tails ->
  capital_here n s r -> follow r -> lit kw false s = None.
Proof.
  intros kw c tail n s r K I C [F _]. apply lit_false_none. intros x ->.
  apply capital_here_intro in C. rewrite K in C. injection C as _ C. eapply F; [exact I|symmetry; exact C].
Qed.

Lemma range_none : forall A (p : parser A) (g : A -> parser (A * A)) r, follow r ->
  (forall s, not_next numeric_char s -> p false s = None) ->
  opt (lit "(" ;; b <- p ;; g b) false r = Some (None, r).
Proof.
  intros A p g r [_ F] P. apply opt_none. destruct r as [|c x]; [reflexivity|].
  destruct (Ascii.eqb "(" c) eqn:E.
  - apply Ascii.eqb_eq in E as <-. destruct (F _ eq_refl) as (y & ->).
    eapply andthen_next; [apply lit_false_intro; reflexivity|]. apply andthen_fail, P. reflexivity.
  - apply andthen_fail, lit_false_none. intros y H. injection H as -> _. discriminate.
Qed.

Ltac lits := repeat first
  [ eapply andthen_intro; [apply lit_false_intro; eassumption|]
  | eapply andthen_intro; [apply INT_base; unfold base; eassumption|]
  | eapply andthen_intro; [apply STRICTFLOAT_base; unfold base; eassumption|] ].

Lemma type_intro : forall f ws s t r, (String.length s <= f)%nat -> follow r ->
  type_at t s r -> Asn1Type f ws s = Some (t, r).
Proof.
  induction f as [|f IH]; intros ws s t r L F H.
  { destruct s; [|simpl in L; lia]. destruct t as [[[]|]|[[]|]| | |[]|n e|n]; destruct H as (m & H & _); discriminate H. }
  cbn [Asn1Type]. unfold noskipws.
  destruct t as [[[b e]|]|[[b e]|]| | |[] n|n e|n]; cbn [type_at] in H.
  - destruct H as (m1 & H1 & m2 & H2 & m3 & H3 & m4 & H4 & m5 & H5 & H6).
    apply orelse_l. apply (text_split "REAL" "(") in H2.
    lits. eapply andthen_intro; [|reflexivity]. apply opt_some.
    eapply andthen_intro; [apply lit_false_intro; reflexivity|]. lits. reflexivity.
  - destruct H as (m1 & H1 & H2). apply orelse_l. lits. eapply andthen_intro; [|reflexivity].
    apply range_none; [exact F|apply FLOAT_false_fail].
  - destruct H as (m1 & H1 & m2 & H2 & m3 & H3 & m4 & H4 & m5 & H5 & H6). apply (text_split "INTEGER" "(") in H2.
    apply orelse_r; [eapply andthen_next; [apply lit_false_intro; eassumption|]; rewrite H2; reflexivity|]. apply orelse_l.
    lits. eapply andthen_intro; [|reflexivity]. apply opt_some.
    eapply andthen_intro; [apply lit_false_intro; reflexivity|]. lits. reflexivity.
  - destruct H as (m1 & H1 & H2).
    apply orelse_r; [eapply andthen_next; [apply lit_false_intro; eassumption|]; rewrite H2; reflexivity|]. apply orelse_l.
    lits. eapply andthen_intro; [|reflexivity]. apply range_none; [exact F|apply INT_false_fail].
  - destruct H as (m1 & H1 & H2).
    do 2 (apply orelse_r; [eapply andthen_next; [apply lit_false_intro; eassumption|]; rewrite H2; reflexivity|]).
    apply orelse_l. lits. reflexivity.
  - destruct H as (m1 & H1 & H2).
    do 3 (apply orelse_r; [eapply andthen_next; [apply lit_false_intro; eassumption|]; rewrite H2; reflexivity|]).
    apply orelse_l. lits. reflexivity.
  - destruct H as (m1 & H1 & m2 & H2 & m3 & H3 & H4).
    do 4 (apply orelse_r; [eapply andthen_next; [apply lit_false_intro; eassumption|]; rewrite H2; reflexivity|]).
    apply orelse_l. apply (text_split "IA5String" " (SIZE (") in H2. lits. unfold Asn1String.
    eapply andthen_intro; [apply orelse_l; lits; reflexivity|].
    eapply andthen_intro; [apply lit_false_intro; reflexivity|]. lits. reflexivity.
  - destruct H as (m1 & H1 & m2 & H2 & m3 & H3 & H4).
    do 4 (apply orelse_r; [eapply andthen_next; [apply lit_false_intro; eassumption|]; rewrite H2; reflexivity|]).
    apply orelse_l. lits. unfold Asn1String.
    eapply andthen_intro.
    { apply orelse_r; [apply andthen_fail; rewrite H2; reflexivity|].
      apply (text_split "NumericString" " (SIZE (") in H2. lits. reflexivity. }
    eapply andthen_intro; [apply lit_false_intro; reflexivity|]. lits. reflexivity.
  - destruct H as (m1 & H1 & m2 & H2 & m3 & H3 & m4 & H4 & H5).
    do 5 (apply orelse_r; [eapply andthen_next; [apply lit_false_intro; eassumption|]; rewrite H2; reflexivity|]).
    apply orelse_l. lits. eapply andthen_intro; [|reflexivity]. apply IH; [|exact F|exact H5].
    rewrite H1, H2 in L. apply int_here_len in H3. rewrite H4 in H3. rewrite !string_length_app in *.
    simpl in *. lia.
  - destruct H as (m1 & H1 & H2).
    assert (N : forall kw c tail, (forall x, NameCapital false (kw ++ x) = Some (c, tail ++ x)) ->
      In tail keyword_tails -> lit kw false m1 = None).
    { intros kw c tail K I. eapply name_no_keyword; eassumption. }
    assert (LS : lit " " false s = Some (tt, m1)) by (apply lit_false_intro, H1).
    apply orelse_r; [eapply andthen_next; [exact LS|]; apply andthen_fail; eapply (N _ "R" "EAL"); [reflexivity|simpl; auto 12]|].
    apply orelse_r; [eapply andthen_next; [exact LS|]; apply andthen_fail; eapply (N _ "I" "NTEGER"); [reflexivity|simpl; auto 12]|].
    apply orelse_r; [eapply andthen_next; [exact LS|]; apply andthen_fail; eapply (N _ "N" "ULL"); [reflexivity|simpl; auto 12]|].
    apply orelse_r; [eapply andthen_next; [exact LS|]; apply andthen_fail; eapply (N _ "B" "OOLEAN"); [reflexivity|simpl; auto 12]|].
    apply orelse_r.
    { eapply andthen_next; [exact LS|]. unfold Asn1String.
      match goal with |- andthen ?p _ false m1 = None => destruct (p false m1) as [[k m2]|] eqn:O end;
        [|apply andthen_fail, O].
      eapply andthen_next; [exact O|]. apply orelse_inv in O as [O | [_ O]].
      - rewrite andthen_fail in O; [discriminate|]. eapply (N _ "I" "A5String"); [reflexivity|simpl; auto 12].
      - inv. apply andthen_fail, lit_false_none. intros y ->.
        apply capital_here_intro in H2. unfold text in *. subst m1. injection H2 as _ E.
        destruct F as [F _]. apply (F "String (SIZE (" y); [simpl; auto 12|]. rewrite <- E. reflexivity. }
    apply orelse_r.
    { eapply andthen_next; [exact LS|]. apply andthen_fail, lit_false_none. intros x ->.
      apply capital_here_intro in H2. injection H2 as _ E.
      destruct F as [F _]. apply (F "EQUENCE" (" (SIZE (" ++ x)); [simpl; auto 12|]. rewrite <- E. reflexivity. }
    eapply andthen_intro; [exact LS|]. eapply andthen_intro; [apply capital_here_intro, H2|]. reflexivity.
Qed.
Lemma typ_inv : forall ws s t r, typ ws s = Some (t, r) -> type_at t s r.
Proof. intros ws s t r. apply type_inv. Qed.
Lemma typ_intro : forall ws s t r, follow r -> type_at t s r -> typ ws s = Some (t, r).
Proof. intros ws s t r F H. apply type_intro; auto. Qed.

(** ** Nothing grows *)
Definition shrinks (P : step) : Prop := forall s r, P s r -> (String.length r <= String.length s)%nat.
Lemma shr_seq : forall P Q, shrinks P -> shrinks Q -> shrinks (P >> Q).
Proof. intros P Q HP HQ s r (m & A & B). specialize (HP _ _ A). specialize (HQ _ _ B). lia. Qed.
Lemma shr_text : forall t, shrinks (text t).
Proof. intros t s r ->. rewrite string_length_app. lia. Qed.
Lemma shr_blanks : shrinks blanks.
Proof. intros s r. apply blanks_len. Qed.
Lemma shr_word : forall t, shrinks (word t).
Proof. intros t. apply shr_seq; [apply shr_blanks|apply shr_text]. Qed.
Lemma shr_nothing : shrinks nothing.
Proof. intros s r ->. lia. Qed.
Lemma shr_false : shrinks (fun _ _ => False).
Proof. intros s r []. Qed.
Lemma shr_int : forall z, shrinks (int_here z).
Proof. intros z s r H. apply int_here_len in H. lia. Qed.
Lemma shr_int_at : forall z, shrinks (int_at z).
Proof. intros z. apply shr_seq; [apply shr_blanks|apply shr_int]. Qed.
Lemma shr_float : forall z, shrinks (float_here z).
Proof.
  intros z s r (neg & sg & ds & fs & n & point & expo & x & S & D & P & X & O & E & _).
  rewrite E, !string_length_app. lia.
Qed.
Lemma shr_float_at : forall z, shrinks (float_at z).
Proof. intros z. apply shr_seq; [apply shr_blanks|apply shr_float]. Qed.
Lemma shr_capital_here : forall n, shrinks (capital_here n).
Proof. intros n s r (_ & -> & _). rewrite string_length_app. lia. Qed.
Lemma shr_capital : forall n, shrinks (capital n).
Proof. intros n s r H. apply capital_len in H. lia. Qed.
Lemma shr_lower : forall n, shrinks (lower_case n).
Proof. intros n s r H. apply lower_case_len in H. lia. Qed.
Lemma shr_spaces : shrinks spaces.
Proof. intros s r (n & ->). rewrite string_length_app. lia. Qed.
Lemma shr_comment : forall c, shrinks (comment_at c).
Proof.
  intros c s r (s1 & s2 & s3 & A & _ & B & _ & C & _ & D).
  assert (HA : (String.length s1 <= String.length s)%nat).
  { refine (shr_seq _ _ _ _ _ _ A); [apply shr_spaces|apply shr_seq; [apply shr_text|apply shr_spaces]]. }
  assert (HB : (String.length s2 <= String.length s1)%nat).
  { destruct (cm_little_endian c); [refine (shr_seq _ _ _ _ _ _ B); [apply shr_text|apply shr_spaces]|].
    destruct B as [-> _]. lia. }
  assert (HC : (String.length s3 <= String.length s2)%nat).
  { destruct (String.eqb (cm_unit c) ""); [destruct C as [-> _]; lia|].
    destruct C as (m & (_ & _ & ->) & C). apply shr_spaces in C. rewrite !string_length_app. lia. }
  destruct (String.eqb (cm_text c) ""); [destruct D as [-> _]; lia|].
  destruct D as (_ & _ & -> & _). rewrite string_length_app in *. lia.
Qed.
Lemma shr_comment_opt : forall c, shrinks (comment_opt_at c).
Proof. intros [c|]; [apply shr_comment|apply shr_nothing]. Qed.
#[global] Hint Resolve shr_seq shr_text shr_blanks shr_word shr_nothing shr_false shr_int shr_int_at shr_float
  shr_float_at shr_capital_here shr_capital shr_lower shr_comment shr_comment_opt : shr.
Lemma shr_type : forall t, shrinks (type_at t).
Proof. induction t as [[[]|]|[[]|]| | |[] n|n e IH|n]; cbn [type_at]; auto 12 with shr. Qed.
#[global] Hint Resolve shr_type : shr.
