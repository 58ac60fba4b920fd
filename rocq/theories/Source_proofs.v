(** * Proofs about runs from texts and files *)
From Coq Require Import Lia.
From Verif Require Import Base PyNum PyStr PyFloat Ast Grammar Size Processor Bundle Main Source Lib_proofs
  Spec_Grammar Spec_Syntax Spec_Utf8 Spec_Source Utf8_proofs Str_proofs Lex_proofs Token_proofs Syntax_proofs Syntax3_proofs Grammatical_proofs.
Open Scope string_scope.

Lemma read_text_ok : forall t m, read_text t = Ok m <-> spells t m.
Proof.
  intros t m. rewrite <- read_module_iff. unfold read_text. destruct (read_module t) as [x|]; split; intros H; congruence.
Qed.
Lemma map_result_total : forall A B (f : A -> result B) l, (forall x, f x <> OutOfFuel) ->
  map_result f l <> OutOfFuel.
Proof.
  intros A B f l T. induction l as [|x l IH]; simpl; [discriminate|]. specialize (T x).
  destruct (f x); simpl; try congruence. destruct (map_result f l); simpl; congruence.
Qed.
Lemma read_texts_ok : forall ts ms, map_result read_text ts = Ok ms <-> Forall2 spells ts ms.
Proof.
  intros ts ms. rewrite map_result_ok. split; intros H; (eapply Forall2_impl; [|exact H]); intros t m; apply read_text_ok.
Qed.

Lemma lines_iff : forall f t, universal_newlines f = t <-> lines_of f t.
Proof.
  assert (A : forall n f, (String.length f <= n)%nat -> lines_of f (universal_newlines f)).
  { induction n as [|n IH]; intros [|c f] L; cbn [String.length] in L; try (cbn; constructor); try lia.
    cbn [universal_newlines]. destruct (Ascii.eqb c CR) eqn:C.
    - apply Ascii.eqb_eq in C as ->. destruct f as [|d f]; [apply text_cr; [discriminate|constructor]|].
      destruct (Ascii.eqb d LF) eqn:D.
      + apply Ascii.eqb_eq in D as ->. apply text_crlf. apply IH. cbn [String.length] in L. lia.
      + apply text_cr; [|apply IH; lia]. intros g G. injection G as -> _. discriminate D.
    - apply text_char; [|apply IH; lia]. intros ->. discriminate C. }
  intros f t. split; [intros <-; eapply A, le_n|]. intros H. induction H as [|f t H IH|f t N H IH|c f t N H IH].
  - reflexivity.
  - cbn. rewrite IH. reflexivity.
  - cbn [universal_newlines]. change (Ascii.eqb "013" CR) with true. cbv iota. f_equal. destruct f as [|d f]; [exact IH|].
    destruct (Ascii.eqb d LF) eqn:D; [|exact IH]. apply Ascii.eqb_eq in D as ->. destruct (N f eq_refl).
  - cbn [universal_newlines]. destruct (Ascii.eqb c CR) eqn:C; [apply Ascii.eqb_eq in C; contradiction|]. rewrite IH. reflexivity.
Qed.
Lemma newlines_iff : forall f t, decode_file f = Some t <-> text_of_file f t.
Proof.
  intros f t. unfold decode_file, text_of_file. rewrite <- utf8_valid_iff, <- lines_iff. destruct (utf8_valid f); split; [intros H; injection H as H; auto|intros (_ & <-); reflexivity|discriminate|intros (H & _); discriminate].
Qed.
Lemma decode_fails : forall f, decode_file f = None <-> ~ is_utf8 f.
Proof. intros f. unfold decode_file. rewrite <- utf8_valid_iff. destruct (utf8_valid f); split; try discriminate; auto. intros H. destruct (H eq_refl). Qed.
Lemma file_text : forall f,
  (is_utf8 f <-> exists t, text_of_file f t) /\ (forall t u, text_of_file f t -> text_of_file f u -> t = u)
  /\ forall d p m, folder_get d p = Some f -> (file_spells d p m <-> exists t, text_of_file f t /\ spells t m).
Proof.
  intros f. split; [split; [intros U; exists (universal_newlines f); split; [exact U|apply lines_iff; reflexivity]|intros (t & U & _); exact U]|]. split.
  - intros t u T U. apply newlines_iff in T. apply newlines_iff in U. congruence.
  - intros d p m G. split.
    + intros (g & t & G' & T & S). rewrite G in G'. injection G' as <-. eauto.
    + intros (t & T & S). exists f, t. auto.
Qed.
Lemma read_file_ok : forall (d : disk) p t,
  match folder_get d p with
  | Some f => match decode_file f with Some t => Ok t | None => Err UnicodeDecodeErr end
  | None => Err AssertionErr
  end = Ok t
  <-> exists f, folder_get d p = Some f /\ text_of_file f t.
Proof.
  intros d p t. destruct (folder_get d p) as [f|]; split; [intros H|intros (g & G & H); injection G as <-|intros H|intros (g & G & H)]; try discriminate.
  - exists f. split; [reflexivity|]. apply newlines_iff. destruct (decode_file f); congruence.
  - apply newlines_iff in H. rewrite H. reflexivity.
Qed.

Lemma files_modules : forall d ps ms, Forall2 (file_spells d) ps ms <->
  exists ts, read_files d ps = Ok ts /\ map_result read_text ts = Ok ms.
Proof.
  intros d ps ms. split.
  - intros H. induction H as [|p m ps ms (f & t & T & N & S) H (ts & R1 & R2)]; [exists []; split; reflexivity|].
    exists (t :: ts). unfold read_files in *. cbn [map_result]. rewrite T. apply newlines_iff in N. rewrite N. cbn [bind]. rewrite R1. split; [reflexivity|].
    apply read_text_ok in S. rewrite S. simpl. rewrite R2. reflexivity.
  - intros (ts & R & T). unfold read_files in R. apply map_result_ok in R. apply read_texts_ok in T.
    revert ms T. induction R as [|p t ps ts P R IH]; intros ms T; inversion T as [|? m ? ms' T1 T2]; subst; constructor.
    + apply read_file_ok in P as (f & P & N). exists f, t. auto.
    + apply IH, T2.
Qed.

Lemma main_run : forall fuel a d fs ms, Forall2 (file_spells d) (input_paths a) ms ->
  main fuel a d fs = run fuel (command_of a) ms fs.
Proof.
  intros fuel a d fs ms H. apply files_modules in H as (ts & R & T). unfold main. rewrite R.
  unfold run_texts, on_modules. rewrite T. reflexivity.
Qed.
Lemma main_unreadable : forall fuel a d fs, (~ exists ms, Forall2 (file_spells d) (input_paths a) ms) ->
  exists e, main fuel a d fs = (fs, Err e).
Proof.
  intros fuel a d fs N. unfold main.
  destruct (read_files d (input_paths a)) as [ts|e|] eqn:R; [|eauto|].
  - unfold run_texts, on_modules. destruct (map_result read_text ts) as [ms|e|] eqn:T; [|eauto|eauto].
    destruct N. exists ms. apply files_modules. eauto.
  - exfalso. revert R. unfold read_files. apply map_result_total. intros p. destruct (folder_get d p) as [f|]; [destruct (decode_file f)|]; discriminate.
Qed.
Lemma file_missing : forall fuel a d fs pre p post, input_paths a = (pre ++ p :: post)%list ->
  (forall q f, In q pre -> folder_get d q = Some f -> is_utf8 f) -> folder_get d p = None -> main fuel a d fs = (fs, Err AssertionErr).
Proof.
  intros fuel a d fs pre p post I U M. unfold main.
  assert (R : read_files d (input_paths a) = Err AssertionErr); [|rewrite R; reflexivity].
  rewrite I. clear I. unfold read_files. induction pre as [|q ps IH]; cbn [app map_result]; [rewrite M; reflexivity|].
  destruct (folder_get d q) as [f|] eqn:Q; [|reflexivity]. destruct (decode_file f) eqn:D.
  - cbn [bind]. rewrite IH; [reflexivity|]. intros x g X. apply U. right. exact X.
  - apply decode_fails in D. destruct (D (U q f (or_introl eq_refl) Q)).
Qed.
Lemma file_undecodable : forall fuel a d fs pre p post f, input_paths a = (pre ++ p :: post)%list ->
  (forall q, In q pre -> exists g, folder_get d q = Some g /\ is_utf8 g) -> folder_get d p = Some f -> ~ is_utf8 f ->
  main fuel a d fs = (fs, Err UnicodeDecodeErr).
Proof.
  intros fuel a d fs pre p post f I U M N. unfold main. apply decode_fails in N.
  assert (R : read_files d (input_paths a) = Err UnicodeDecodeErr); [|rewrite R; reflexivity].
  rewrite I. clear I. unfold read_files. induction pre as [|q ps IH]; cbn [app map_result]; [rewrite M, N; reflexivity|].
  destruct (U q (or_introl eq_refl)) as (g & -> & G). destruct (decode_file g) eqn:D.
  - cbn [bind]. rewrite IH; [reflexivity|]. intros x X. apply U. right. exact X.
  - apply decode_fails in D. destruct (D G).
Qed.
Lemma files_grammatical : forall d ps ms, Forall2 (file_spells d) ps ms -> Forall (fun m => grammatical m = true) ms.
Proof.
  intros d ps ms H. induction H as [|p m ps ms (f & t & _ & _ & S) H IH]; constructor; [|exact IH].
  eapply spells_grammatical, S.
Qed.

(** ** Commas *)
Lemma split_commas_cons : forall s, exists w ws, split_commas s = w :: ws.
Proof.
  intros [|c s]; simpl; [eauto|]. destruct (Ascii.eqb c ","); [eauto|]. destruct (split_commas s); eauto.
Qed.
Lemma split_commas_iff : forall s l, split_commas s = l <-> l <> [] /\ Forall no_comma l /\ String.concat "," l = s.
Proof.
  intros s l. split.
  - intros <-. induction s as [|c s (N & F & C)]; simpl.
    + split; [discriminate|]. split; [constructor; [reflexivity|constructor]|reflexivity].
    + destruct (split_commas_cons s) as (w & ws & E). rewrite E in *. destruct (Ascii.eqb c ",") eqn:K.
      * apply Ascii.eqb_eq in K as ->. split; [discriminate|]. split; [constructor; [reflexivity|exact F]|].
        simpl in *. rewrite C. reflexivity.
      * split; [discriminate|]. inversion F as [|? ? F1 F2]; subst. split.
        -- constructor; [|exact F2]. unfold no_comma in *. simpl. rewrite K. exact F1.
        -- destruct ws; reflexivity.
  - intros (N & F & <-). induction l as [|w l IH]; [congruence|]. clear N. inversion F as [|? ? F1 F2]; subst.
    destruct l as [|x l].
    + simpl. clear - F1. induction w as [|c w IHw]; [reflexivity|]. unfold no_comma in F1. simpl in *.
      apply andb_true_iff in F1 as [F1 F2]. apply negb_true_iff in F1. rewrite F1, (IHw F2). reflexivity.
    + specialize (IH ltac:(discriminate) F2). change (String.concat "," (w :: x :: l)) with (w ++ "," ++ String.concat "," (x :: l)).
      set (rest := String.concat "," (x :: l)) in *. clearbody rest.
      clear - F1 IH. induction w as [|c w IHw].
      * simpl. rewrite IH. reflexivity.
      * unfold no_comma in F1. simpl in F1. apply andb_true_iff in F1 as [F1 F2]. apply negb_true_iff in F1.
        change (String c w ++ "," ++ rest) with (String c (w ++ "," ++ rest)).
        cbn [split_commas]. rewrite F1. unfold no_comma in IHw. rewrite (IHw F2). reflexivity.
Qed.

(** ** Comments *)
Lemma spaces_chars : forall s r, spaces s r -> forall t e, s = t ++ e -> line_ends e -> all_chars comment_char t = true ->
  exists t', r = t' ++ e /\ all_chars comment_char t' = true.
Proof.
  intros s r (n & ->). induction n as [|n IH]; intros t e E L C; [exists t; simpl in E; auto|].
  change (repeat_str (S n) " " ++ r) with (String " " (repeat_str n " " ++ r)) in E.
  destruct t as [|c t].
  - unfold line_ends, NL in L. destruct L as [-> | (y & ->)]; discriminate E.
  - injection E as <- E. exact (IH t e E L C).
Qed.
Lemma no_newline : forall t e x y, line_ends e -> all_chars comment_char t = true -> all_chars (fun c => negb (Ascii.eqb c LF)) x = true ->
  t ++ e = x ++ y -> exists t', t = x ++ t' /\ y = t' ++ e.
Proof.
  induction t as [|c t IH]; intros e x y L C X E.
  - simpl in E. destruct x as [|d x]; [exists ""; auto|]. subst e. simpl in X. apply andb_true_iff in X as [X _].
    destruct L as [L | (z & L)]; [discriminate|]. injection L as -> _. discriminate X.
  - destruct x as [|d x]; [exists (String c t); split; [reflexivity|symmetry; exact E]|].
    injection E as -> E. simpl in C, X. apply andb_true_iff in C as [_ C]. apply andb_true_iff in X as [_ X].
    destruct (IH _ _ _ L C X E) as (t' & -> & ->). exists t'. auto.
Qed.
Lemma unit_no_LF : forall u, all_chars unit_char u = true -> all_chars (fun c => negb (Ascii.eqb c LF)) u = true.
Proof.
  intros u. induction u as [|c u IH]; simpl; [auto|]. intros H. apply andb_true_iff in H as [H1 H2].
  rewrite (IH H2), andb_true_r. revert H1. destruct c as [[] [] [] [] [] [] [] []]; vm_compute; auto.
Qed.
Lemma all_chars_suffix : forall f a b, all_chars f (a ++ b) = true -> all_chars f b = true.
Proof. intros f a b H. rewrite all_chars_app in H. apply andb_true_iff in H. apply H. Qed.

(** A comment made of comment characters only takes the rest of the line. *)
Lemma comment_takes_line : forall c n t e r, all_chars comment_char t = true -> line_ends e ->
  comment_at c (repeat_str n " " ++ "--" ++ t ++ e) r -> r = e.
Proof.
  intros c n t e r C L (s1 & s2 & s3 & (m1 & A1 & m2 & A2 & A3) & N1 & LE & N2 & U & N3 & T).
  assert (E2 : m2 = t ++ e).
  { destruct A1 as (k & A1). rewrite A2 in A1. clear - A1. revert k A1. induction n as [|n IH]; intros [|k] A1.
    - injection A1 as A1. symmetry. exact A1.
    - discriminate A1.
    - discriminate A1.
    - simpl in A1. injection A1 as A1. apply (IH k). exact A1. }
  destruct (spaces_chars _ _ A3 t e E2 L C) as (t1 & -> & C1).
  assert (S2 : exists t2, s2 = t2 ++ e /\ all_chars comment_char t2 = true).
  { destruct (cm_little_endian c).
    - destruct LE as (x & X & Y). unfold text in X.
      destruct (no_newline _ _ "ENDIANNESS(LITTLE)" _ L C1 eq_refl X) as (t2 & -> & ->).
      apply all_chars_suffix in C1. eapply spaces_chars; [exact Y|reflexivity|exact L|exact C1].
    - destruct LE as [-> _]. eauto. }
  destruct S2 as (t2 & -> & C2).
  assert (S3 : exists t3, s3 = t3 ++ e /\ all_chars comment_char t3 = true).
  { destruct (String.eqb (cm_unit c) "").
    - destruct U as [-> _]. eauto.
    - destruct U as (x & (_ & UC & X) & Y).
      assert (X' : t2 ++ e = ("[" ++ cm_unit c ++ "]") ++ x) by (rewrite X, <- !string_app_assoc; reflexivity).
      destruct (no_newline _ _ ("[" ++ cm_unit c ++ "]") x L C2) as (t3 & -> & ->); [|exact X'|].
      + rewrite !all_chars_app, (unit_no_LF _ UC). reflexivity.
      + apply all_chars_suffix in C2. eapply spaces_chars; [exact Y|reflexivity|exact L|exact C2]. }
  destruct S3 as (t3 & -> & C3).
  destruct (String.eqb (cm_text c) "") eqn:Z.
  - destruct T as [-> T]. destruct t3 as [|d t3]; [reflexivity|]. destruct (T (String d t3) e).
    split; [discriminate|]. auto.
  - destruct T as (_ & TC & TE & TL). destruct (no_newline t3 e (cm_text c) r L C3) as (t' & -> & ->); [|exact TE|].
    + apply (Float_proofs.all_chars_imp comment_char); [|exact TC]. intros d D. destruct d as [[] [] [] [] [] [] [] []]; vm_compute in D |- *; auto.
    + destruct t' as [|d t']; [reflexivity|]. apply all_chars_suffix in C3. simpl in C3. apply andb_true_iff in C3 as [C3 _].
      destruct TL as [TL | (y & TL)]; [discriminate|]. injection TL as -> _. discriminate C3.
Qed.
