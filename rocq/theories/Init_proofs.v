(** * Proofs: when the initialisers of a source fit the headers *)
From Coq Require Import QArith Qabs.
From Coq Require Import List String ZArith Lia Bool Ascii Permutation.
Import ListNotations.
From Verif Require Import Base PyNum PyStr PyFloat Ast CCommon Main.
From Verif Require Import Spec_Grammar Spec_Check Spec_Num Spec_Enum Spec_Size Spec_Bundle Spec_Gen Spec_Text Spec_Syntax Spec_C Spec_Header Spec_Valid Spec_Floats Spec_Init.
From Verif Require Import Str_proofs Text_proofs Lib_proofs Check_proofs Bundle_proofs Field_proofs Name_proofs Token_proofs Cfs_proofs Float_proofs Floats_proofs C_proofs Header3_proofs Valid_proofs.
Open Scope string_scope.
Open Scope list_scope.

(** ** Constants *)
Definition number_char (c : ascii) : bool :=
  is_digit c || Ascii.eqb c "-" || Ascii.eqb c "+" || Ascii.eqb c "." || Ascii.eqb c "e" || Ascii.eqb c "E".
Definition int_char (c : ascii) : bool := is_digit c || Ascii.eqb c "-".

Lemma signs_chars : forall neg sg, signs neg sg -> all_chars number_char sg = true.
Proof. intros [] sg H; simpl in H; [subst sg; reflexivity|]. destruct H; subst sg; reflexivity. Qed.

Lemma digits_chars : forall ds n, decimal ds n -> all_chars number_char ds = true.
Proof.
  intros ds n (_ & H & _). revert H. apply all_chars_impl. intros c H. unfold number_char. rewrite H. reflexivity.
Qed.

Lemma float_text_chars : forall s neg q, float_text s neg q ->
  all_chars number_char s = true /\ all_chars int_char s = false.
Proof.
  intros s neg q (sg & ds & fs & n & point & expo & x & S & D & P & X & O & -> & _).
  assert (D' := digits_chars _ _ D). rewrite all_chars_app in D'. apply andb_prop in D'. destruct D' as [D1 D2].
  split.
  - rewrite !all_chars_app, (signs_chars _ _ S), D1, D2.
    assert (all_chars number_char point = true) as -> by (destruct P as [[-> _]| ->]; reflexivity).
    destruct X as [[-> _]|(e & neg' & sg' & xs & y & E & S' & Dx & -> & _)]; [reflexivity|].
    rewrite !all_chars_app, (signs_chars _ _ S'), (digits_chars _ _ Dx). destruct E as [-> | ->]; reflexivity.
  - rewrite !all_chars_app.
    destruct P as [[-> _]| ->]; [|rewrite !andb_false_r; reflexivity].
    destruct X as [[-> _]|(e & neg' & sg' & xs & y & E & S' & Dx & -> & _)].
    + destruct O as [O|O]; congruence.
    + destruct E as [-> | ->]; rewrite !all_chars_app; simpl; rewrite !andb_false_r; reflexivity.
Qed.

Lemma read_digits_chars : forall s acc z, read_digits 10 acc s = Some z -> all_chars is_digit s = true.
Proof.
  induction s as [|c s IH]; intros acc z H; [reflexivity|]. simpl in H |- *.
  destruct (digit_value 10 c) as [d|] eqn:E; [|discriminate]. rewrite (IH _ _ H), andb_true_r.
  unfold digit_value in E. unfold code in E. unfold is_digit.
  destruct ((48 <=? Z.of_N (N_of_ascii c)) && (Z.of_N (N_of_ascii c) <=? 57))%Z eqn:R.
  - apply andb_prop in R. destruct R as [A B]. apply Z.leb_le in A, B. 
    apply andb_true_intro; split; apply N.leb_le; lia.
  - destruct ((65 <=? Z.of_N (N_of_ascii c)) && (Z.of_N (N_of_ascii c) <=? 90))%Z eqn:R'.
    + apply andb_prop in R'. destruct R' as [A B]. apply Z.leb_le in A, B.
      destruct (Z.of_N (N_of_ascii c) - 55 <? 10)%Z eqn:L; [|discriminate]. apply Z.ltb_lt in L. lia.
    + discriminate.
Qed.
Lemma read_int_chars : forall s z, read_int s = Some z -> all_chars int_char s = true.
Proof.
  assert (U : forall s z, read_unsigned 10 s = Some z -> all_chars int_char s = true).
  { intros s z H. unfold read_unsigned in H. destruct s as [|c s]; [discriminate|]. apply read_digits_chars in H.
    revert H. apply all_chars_impl. intros x Hx. unfold int_char. rewrite Hx. reflexivity. }
  intros s z H. unfold read_int in H. destruct s as [|c s]; [discriminate|].
  destruct c as [[] [] [] [] [] [] [] []]; try (exact (U _ _ H)).
  destruct (read_unsigned 10 s) as [y|] eqn:E; [|discriminate]. simpl. exact (U _ _ E).
Qed.

Lemma constant_iff : forall v s, wval_ok v = true -> c_value v s -> (c_constant s <-> constant_value v).
Proof.
  intros v s OK H. unfold c_constant. destruct v as [z|f|b|w]; simpl in H |- *; [..|contradiction].
  - assert (O := decimal_not_octal _ _ H). destruct H as [R _]. split.
    + intros [(y & R' & _ & L)|(neg & q & T & _)]; [congruence|].
      apply float_text_chars in T. apply read_int_chars in R. destruct T. congruence.
    + intros L. left. exists z. auto.
  - subst s. split.
    + intros C. destruct (fval f) as [sg m e|sg] eqn:E; [exact I|].
      assert (X : all_chars number_char (frepr f) = false /\ all_chars int_char (frepr f) = false).
      { rewrite (float_ok_repr _ OK), E. destruct sg; split; reflexivity. }
      destruct X as [X1 X2]. destruct C as [(y & R' & _)|(neg & q & T & _)].
      * apply read_int_chars in R'. congruence.
      * apply float_text_chars in T. destruct T. congruence.
    + intros F. right. destruct (printed_rounded f OK F) as (neg & q & T & R). exists neg, q. split; [exact T|].
      destruct (fval f); [exact (proj2 (proj2 R))|destruct F].
  - split; [auto|]. intros _. left. exists (if b then 1 else 0)%Z. destruct b; subst s; (split; [reflexivity|]); (split; [|reflexivity]).
    + intros sg r [-> | ->] E; discriminate.
    + intros sg r [-> | ->] E; [injection E as <-; reflexivity|discriminate].
Qed.

(** ** Types *)
Lemma cap_first : forall n s, is_name_capital n = true ->
  match s with String c _ => is_upper c | "" => false end = false -> c_name n <> s.
Proof.
  intros n s H L E. rewrite c_name_eq in E by (apply capital_name; exact H). apply capital_chars in H.
  destruct H as (c & r & -> & U & _). simpl in E. rewrite us_upper in E by exact U. subst s. congruence.
Qed.

Lemma cap_not : forall n s, is_name_capital n = true ->
  In s (["char"; "int"; "float"; "double"; "bool"; "string"] ++ STDINT_TYPES) -> c_name n <> s.
Proof.
  intros n s H L. apply cap_first; [exact H|]. simpl in L.
  repeat (destruct L as [<-|L]; [reflexivity|]). destruct L.
Qed.

Section types.
Variables (ds : list definition) (structs : string -> list xfield -> Prop) (enums : string -> Prop).
Hypothesis ND : NoDup (map def_name ds).
Hypothesis OK : Forall (fun d => definition_ok d = true) ds.
Hypothesis ST : forall s fs, structs s fs -> exists n c ms, s = c_name n /\ In (DSequence n c ms) ds /\ Forall2 (member_said ds) ms fs.
Hypothesis EN : forall s, enums s <-> exists n c l, s = c_name n /\ In (DEnumerated n c l) ds.
Hypothesis EX : forall n c ms, In (DSequence n c ms) ds -> exists fs, structs (c_name n) fs /\ Forall2 (member_said ds) ms fs.

Lemma named : forall d d', In d ds -> In d' ds -> def_name d = def_name d' -> d = d'.
Proof. intros d d' A B E. eapply NoDup_map_inj; eauto. Qed.
Lemma caps : forall d, In d ds -> is_name_capital (def_name d) = true.
Proof. apply def_cap. exact OK. Qed.
Lemma cap_inj : forall d d', In d ds -> In d' ds -> c_name (def_name d) = c_name (def_name d') -> d = d'.
Proof.
  intros d d' A B E. apply named; try assumption. apply c_name_inj; try exact E; apply capital_name, caps; assumption.
Qed.

Lemma enum_not : forall d s, In d ds -> s = c_name (def_name d) -> (forall n c l, d <> DEnumerated n c l) -> ~ enums s.
Proof.
  intros d s A -> N H. apply EN in H. destruct H as (n & c & l & E & I). apply (N n c l).
  exact (cap_inj d (DEnumerated n c l) A I E).
Qed.
Lemma enum_lower : forall s, In s (["char"; "int"; "float"; "double"; "bool"; "string"] ++ STDINT_TYPES) -> ~ enums s.
Proof.
  intros s L H. apply EN in H. destruct H as (n & c & l & E & I). symmetry in E.
  exact (cap_not n s (caps _ I) L E).
Qed.

Lemma scalar_named : forall n, is_name_capital n = true -> scalar enums [c_name n] -> enums (c_name n).
Proof.
  intros n H [L|(s & E & [L|L])].
  - exfalso. simpl in L. destruct L as [L|[L|[L|[L|[L|[]]]]]]; try discriminate; injection L as L; symmetry in L; revert L;
      (apply cap_first; [exact H|reflexivity]).
  - injection E as <-. exfalso. apply (cap_not n (c_name n) H); [apply in_or_app; right; exact L|reflexivity].
  - injection E as <-. exact L.
Qed.

Lemma scalar_lower : forall s, In s ["bool"; "string"] -> ~ scalar enums [s].
Proof.
  intros s L [H|(n & E & [H|H])].
  - destruct L as [<-|[<-|[]]]; simpl in H; intuition discriminate.
  - injection E as <-. destruct L as [<-|[<-|[]]]; simpl in H; intuition discriminate.
  - injection E as <-. revert H. apply enum_lower. apply in_or_app. left. simpl in L |- *. tauto.
Qed.

Lemma scalar_std : forall s, In s STDINT_TYPES -> scalar enums [s].
Proof. intros s H. right. exists s. auto. Qed.

Lemma number_scalar : forall t ct bits, number_said t ct bits -> (scalar enums ct <-> number_type t).
Proof.
  intros t ct bits H. unfold number_type. destruct H as [lo hi w n ct bits A B C D E F|lo hi w A B C|lo hi A|b e A B|b e A|t A|k n|t A|t A].
  - split; [eauto|]. intros _. apply scalar_std. simpl in E. simpl. intuition congruence.
  - split; [eauto|]. intros _. left. simpl. tauto.
  - split; [eauto|]. intros _. left. simpl. tauto.
  - split; [eauto|]. intros _. left. simpl. tauto.
  - split; [eauto|]. intros _. left. simpl. tauto.
  - split; [intros X; exfalso; revert X; apply scalar_lower; simpl; tauto|].
    intros [(r & ->)|[(r & ->)|[X|X]]]; simpl in A; congruence.
  - split; [intros X; exfalso; revert X; apply scalar_lower; simpl; tauto|].
    intros [(r & X)|[(r & X)|[X|X]]]; simpl in X; discriminate.
  - split; [auto|]. intros _. left. simpl. tauto.
  - split; [auto|]. intros _. left. simpl. tauto.
Qed.

Lemma posix_std : forall n ct, In (n, ct) POSIX_NAMES -> In ct STDINT_TYPES.
Proof. intros n ct H. simpl in H. simpl. intuition congruence. Qed.
Lemma posix_in : forall n ct, In (n, ct) POSIX_NAMES -> In n (map fst POSIX_NAMES).
Proof. intros n ct H. apply in_map_iff. exists (n, ct). auto. Qed.

Lemma plain_element : forall t, (forall n e, t <> TArray n e) -> element t = t.
Proof. intros t H. destruct t; try reflexivity. exfalso. eapply H. reflexivity. Qed.

Lemma scalar_member : forall k f, member_said ds k f ->
  ((x_array f = None /\ scalar enums (x_type f)) <-> number_member ds (m_type k)).
Proof.
  intros k f (_ & A & T). rewrite A. destruct (m_type k) as [r|r| | |sk n|n e|n] eqn:E;
    try (split; [intros [X _]; discriminate|intros []]); simpl element in *.
  - split; [intros _; exact I|]. intros _. split; [reflexivity|].
    inversion T as [X|? ? X|? ? X Y| | | | | | | ]; subst; try discriminate.
    apply (number_scalar _ _ _ Y). right. left. eauto.
  - split; [intros _; exact I|]. intros _. split; [reflexivity|].
    inversion T as [X|? ? X|? ? X Y| | | | | | | ]; subst; try discriminate.
    apply (number_scalar _ _ _ Y). left. eauto.
  - exfalso. inversion T as [X|? ? X|? ? [[? X]|[? X]] Y| | | | | | | ]; discriminate.
  - split; [intros _; exact I|]. intros _. split; [reflexivity|].
    inversion T as [X|? ? X|? ? [[? X]|[? X]] Y| | | | | | | ]; subst; try discriminate. apply scalar_std. simpl. tauto.
  - inversion T as [X|? ? X|? ? [[? X]|[? X]] Y|n' t' c ct bits X I NP Y|n' t' c ct X I P|n' c l X I NP|n' c l X I NP|n' c l w X I NP W|n' c l m e X X' I NP|n' d ct bits X I DN SI P];
      try discriminate; simpl in X; try (injection X as <-).
    + rewrite (number_scalar _ _ _ Y). split.
      * intros [_ Z]. right. right. eauto.
      * intros [Z|[(c' & l & Z)|(t2 & c2 & Z & N)]]; [contradiction| |].
        -- exfalso. assert (Q := named _ _ I Z eq_refl). discriminate.
        -- assert (Q := named _ _ I Z eq_refl). injection Q as <- _. auto.
    + split; [intros _; left; eapply posix_in; eassumption|]. intros _. split; [reflexivity|].
      apply scalar_std. eapply posix_std. eassumption.
    + split.
      * intros [_ Z]. apply (scalar_named n (caps _ I)) in Z. exfalso. revert Z. apply (enum_not _ _ I eq_refl). discriminate.
      * intros [Z|[(c' & l' & Z)|(t2 & c2 & Z & N)]]; [contradiction| |]; exfalso; assert (Q := named _ _ I Z eq_refl); discriminate.
    + split.
      * intros [_ Z]. apply (scalar_named n (caps _ I)) in Z. exfalso. revert Z. apply (enum_not _ _ I eq_refl). discriminate.
      * intros [Z|[(c' & l' & Z)|(t2 & c2 & Z & N)]]; [contradiction| |]; exfalso; assert (Q := named _ _ I Z eq_refl); discriminate.
    + split; [intros _; right; left; eauto|]. intros _. split; [reflexivity|]. right. exists (c_name n). split; [reflexivity|].
      right. apply EN. eauto.
    + split; [intros _; left; eapply posix_in; eassumption|]. intros _. split; [reflexivity|].
      apply scalar_std. eapply posix_std. eassumption.
Qed.

(** A field that is a struct. *)
Lemma struct_member : forall k f, member_said ds k f -> forall n c ms, In (DSequence n c ms) ds ->
  ((x_array f = None /\ x_bits f = None /\ x_type f = [c_name n]) <-> (m_type k = TName n /\ ~ In n (map fst POSIX_NAMES))).
Proof.
  intros k f (_ & A & T) n c ms I0. assert (C0 := caps _ I0). simpl in C0. rewrite A.
  assert (S : forall s, In s (["char"; "int"; "float"; "double"; "bool"; "string"] ++ STDINT_TYPES) -> [s] <> [c_name n]).
  { intros s L X. injection X as X. exact (cap_not n s C0 L (eq_sym X)). }
  assert (NS : forall t ct bits, number_said t ct bits -> ct <> [c_name n]).
  { intros t ct bits H. destruct H; try (apply S; simpl; tauto); [|discriminate]. apply S. apply in_or_app. right.
    match goal with H : In _ UINT_TYPES |- _ => simpl in H end. simpl. intuition congruence. }
  assert (PS : forall m ct, In (m, ct) POSIX_NAMES -> [ct] <> [c_name n]).
  { intros m ct H. apply S. apply in_or_app. right. eapply posix_std. eassumption. }
  assert (NE : forall n' d, In d ds -> def_name d = n' -> d <> DSequence n c ms -> [c_name n'] <> [c_name n]).
  { intros n' d Hd <- N X. injection X as X. apply N. exact (cap_inj _ _ Hd I0 X). }
  split.
  - intros (A' & B & X).
    assert (PE : element (m_type k) = m_type k) by (apply plain_element; intros q e Y; rewrite Y in A'; discriminate).
    destruct T as [X'|? ? X'|? ? X' Y|n' t' c' ct bits X' I NP Y|n' t' c' ct X' I P|n' c' l X' I NP|n' c' l X' I NP|n' c' l w X' I NP W|n' c' l m e X' X2 I NP|n' d ct bits X' I DN SI P].
    + exfalso. revert X. apply S. simpl. tauto.
    + exfalso. revert X. apply S. simpl. tauto.
    + exfalso. exact (NS _ _ _ Y X).
    + exfalso. exact (NS _ _ _ Y X).
    + exfalso. exact (PS _ _ P X).
    + injection X as X. assert (Q := cap_inj _ _ I I0 X). injection Q as -> _ _. rewrite PE in X'. auto.
    + exfalso. revert X. apply (NE n' _ I eq_refl). discriminate.
    + exfalso. revert X. apply (NE n' _ I eq_refl). discriminate.
    + rewrite X' in A'. discriminate.
    + exfalso. exact (PS _ _ P X).
  - intros [X NP]. rewrite X in *. split; [reflexivity|].
    inversion T as [X'|? ? X'|? ? [[? X']|[? X']] Y|n' t' c' ct bits X' I NP' Y|n' t' c' ct X' I P|n' c' l X' I NP'|n' c' l X' I NP'|n' c' l w X' I NP' W|n' c' l m e X' X2 I NP'|n' d ct bits X' I DN SI P];
      try discriminate; simpl in X'; try (injection X' as <-).
    + exfalso. assert (Q := named _ _ I I0 eq_refl). discriminate.
    + exfalso. apply NP. eapply posix_in. eassumption.
    + auto.
    + exfalso. assert (Q := named _ _ I I0 eq_refl). discriminate.
    + exfalso. assert (Q := named _ _ I I0 eq_refl). discriminate.
    + exfalso. apply NP. eapply posix_in. eassumption.
Qed.

(** ** Initialisers *)
Definition item_fits (ms : list member) (i : witem) : Prop :=
  match i with WI k v _ =>
    exists x, In x ms /\ m_key x = k
      /\ ((exists w, v = VWith w /\ clause_fits ds (m_type x) w) \/ (number_member ds (m_type x) /\ constant_value v))
  end.

Lemma member_of_field : forall n c ms fs f, In (DSequence n c ms) ds -> Forall2 (member_said ds) ms fs -> In f fs ->
  exists x, In x ms /\ member_said ds x f /\ is_name_lower (m_key x) = true.
Proof.
  intros n c ms fs f I F Hf. destruct (Forall2_in_r _ _ _ _ _ _ F Hf) as (x & Hx & M). exists x. split; [exact Hx|]. split; [exact M|].
  rewrite Forall_forall in OK. specialize (OK _ I). simpl in OK. apply andb_prop in OK. destruct OK as [_ O].
  rewrite forallb_forall in O. specialize (O x Hx). unfold member_ok in O. repeat (apply andb_prop in O; destruct O as [O ?]). exact O.
Qed.

Lemma clause_fits_inv : forall t w, clause_fits ds t w -> exists n c ms, t = TName n /\ In (DSequence n c ms) ds
  /\ ~ In n (map fst POSIX_NAMES) /\ Forall (item_fits ms) (wc_items w).
Proof.
  intros t w H. destruct H as [n c ms cm l I NP H]. exists n, c, ms. split; [reflexivity|]. split; [exact I|]. split; [exact NP|].
  apply Forall_forall. intros [k v kc] Hi. exact (H k v kc Hi).
Qed.
Lemma clause_fits_intro : forall n c ms w, In (DSequence n c ms) ds -> ~ In n (map fst POSIX_NAMES) ->
  Forall (item_fits ms) (wc_items w) -> clause_fits ds (TName n) w.
Proof.
  intros n c ms [cm l] I NP H. apply (clause_fits_sequence ds n c ms); [exact I|exact NP|].
  intros k v kc Hi. rewrite Forall_forall in H. exact (H _ Hi).
Qed.

Lemma inits_fit : forall items trees, mirrors items trees -> Forall (fun i => witem_ok i = true) items ->
  forall n c ms fs, In (DSequence n c ms) ds -> Forall2 (member_said ds) ms fs ->
  (Forall (init_fits structs enums fs) trees <-> Forall (item_fits ms) items).
Proof.
  intros items trees M. induction M as [|k v cm r s t V M IH|k w cm r sub t M1 IH1 M2 IH2]; intros W n c ms fs I F.
  - split; constructor.
  - inversion W as [|? ? W1 W2]; subst. specialize (IH W2 n c ms fs I F).
    simpl in W1. apply andb_prop in W1. destruct W1 as [W1 _]. apply andb_prop in W1. destruct W1 as [Wk Wv].
    assert (CV := constant_iff v s Wv V).
    assert (X : init_fits structs enums fs (Leaf (c_name k) s) <-> item_fits ms (WI k v cm)).
    { split.
      - intros X. inversion X as [f s' Hf A Sc Cs EQ|]; subst. destruct (member_of_field n c ms fs f I F Hf) as (x & Hx & Mx & Kx).
        exists x. split; [exact Hx|]. split.
        + apply c_name_inj; [apply lower_name; exact Kx|apply lower_name; exact Wk|]. rewrite <- (proj1 Mx). assumption.
        + right. split; [apply (scalar_member x f Mx); auto|apply CV; exact Cs].
      - intros (x & Hx & <- & [(w & -> & _)|[N C]]); [destruct V|].
        destruct (Forall2_in_l _ _ _ _ _ _ F Hx) as (f & Hf & Mx). rewrite <- (proj1 Mx).
        apply (scalar_member x f Mx) in N. destruct N. constructor; try assumption. apply CV. exact C. }
    split; intros H; inversion H; subst; constructor; tauto.
  - inversion W as [|? ? W1 W2]; subst. specialize (IH2 W2 n c ms fs I F).
    simpl in W1. apply andb_prop in W1. destruct W1 as [W1 _]. apply andb_prop in W1. destruct W1 as [Wk Wv].
    apply wcomps_ok_items in Wv.
    assert (X : init_fits structs enums fs (Node (c_name k) sub) <-> item_fits ms (WI k (VWith w) cm)).
    { split.
      - intros X. inversion X as [|f s gs sub' Hf A B C St Fs EQ]; subst. apply ST in St. destruct St as (n' & c' & ms' & -> & I' & F').
        destruct (member_of_field n c ms fs f I F Hf) as (x & Hx & Mx & Kx). exists x. split; [exact Hx|]. split.
        + apply c_name_inj; [apply lower_name; exact Kx|apply lower_name; exact Wk|]. rewrite <- (proj1 Mx). assumption.
        + left. exists w. split; [reflexivity|]. destruct (proj1 (struct_member x f Mx n' c' ms' I') (conj A (conj B C))) as [-> NP].
          apply (clause_fits_intro n' c' ms'); [assumption..|]. apply (IH1 Wv n' c' ms' gs I' F'). exact Fs.
      - intros (x & Hx & <- & [(w' & E & H)|[N C]]); [|destruct C]. injection E as <-.
        destruct (clause_fits_inv _ _ H) as (n' & c' & ms' & Et & I' & NP & Fi).
        destruct (Forall2_in_l _ _ _ _ _ _ F Hx) as (f & Hf & Mx). rewrite <- (proj1 Mx).
        destruct (proj2 (struct_member x f Mx n' c' ms' I') (conj Et NP)) as (A & B & C).
        destruct (EX n' c' ms' I') as (gs & St & F').
        apply (init_node _ _ _ f (c_name n') gs); try assumption.
        apply (IH1 Wv n' c' ms' gs I' F'). exact Fi. }
    split; intros H; inversion H; subst; constructor; tauto.
Qed.

Lemma variable_fits_iff : forall n k w text c ms m, In (DSequence n c ms) ds -> In m ms -> m_key m = k -> m_with m = Some w ->
  initialises (n, k, w) text ->
  (variable_fits structs enums text <-> member_clause_fits ds (n, k, w)).
Proof.
  intros n k w text c ms m I Hm Hk Hw (body & sub & E & R & M & _).
  assert (KW : is_name_lower k = true /\ wcomps_ok w = true).
  { rewrite Forall_forall in OK. specialize (OK _ I). simpl in OK. apply andb_prop in OK. destruct OK as [_ O].
    rewrite forallb_forall in O. specialize (O m Hm). unfold member_ok in O. rewrite Hw, Hk in O.
    repeat (apply andb_prop in O; destruct O as [O ?]). auto. }
  destruct KW as [Kk Kw].
  assert (ITEM : forall fs ms' c', In (DSequence n c' ms') ds -> Forall2 (member_said ds) ms' fs ->
    (Forall (init_fits structs enums fs) [Node (c_name k) sub] <-> member_clause_fits ds (n, k, w))).
  { intros fs ms' c' I' F. rewrite (inits_fit [WI k (VWith w) None] [Node (c_name k) sub] ltac:(repeat constructor; exact M)
      ltac:(repeat constructor; simpl; rewrite Kk, Kw; reflexivity) n c' ms' fs I' F).
    assert (Q := named _ _ I I' eq_refl). injection Q as <- <-. split.
    - intros H. apply Forall_inv in H. destruct H as (x & Hx & Ex & [(w' & Ew & H')|[_ []]]). injection Ew as <-.
      exists c, ms, x. auto.
    - intros (c2 & ms2 & x & I2 & Hx & Ex & H'). assert (Q := named _ _ I I2 eq_refl). injection Q as <- <-.
      constructor; [|constructor]. exists x. split; [exact Hx|]. split; [exact Ex|]. left. eauto. }
  split.
  - intros (s & fs & body' & trees & St & E' & R' & Ft). destruct (ST _ _ St) as (n' & c' & ms' & -> & I' & F').
    assert (N : c_name n = c_name n').
    { rewrite E in E'. apply (f_equal (split_on " ")) in E'. cbn [append] in E'.
      rewrite (split_on_solid " " (c_name n)), (split_on_solid " " (c_name n')) in E'
        by (apply solid_no_space, c_name_solid, capital_name; first [exact (caps _ I)|exact (caps _ I')]).
      apply (f_equal (hd "")) in E'. exact E'. }
    assert (Q := cap_inj _ _ I I' N). injection Q as <- <- <-.
    assert (B : body = body').
    { rewrite E in E'. do 5 apply string_app_inv_l in E'. apply string_app_inv_r in E'. exact E'. }
    subst body'. rewrite R in R'. injection R' as <-. apply (ITEM fs ms c I F'). exact Ft.
  - intros H. destruct (EX n c ms I) as (fs & St & F). exists (c_name n), fs, body, [Node (c_name k) sub].
    split; [exact St|]. split; [exact E|]. split; [exact R|]. apply (ITEM fs ms c I F). exact H.
Qed.
End types.

(** ** Runs *)
Section run.
Variables (names : list string) (fuel : nat) (input : list module) (fs fs' : folder).
Hypothesis Hg : Forall (fun m => grammatical m = true) input.
Hypothesis HR : run fuel (GenerateC names) input fs = (fs', Ok tt).
Hypothesis HQ : Forall quiet input.
Let ds := definitions input.
Let HC : config_command names (GenerateC names) := or_intror (or_introl eq_refl).

Lemma struct_declared : forall s fields, declares_struct (GenerateC names) fs' input s fields ->
  exists n c ms, s = c_name n /\ In (DSequence n c ms) ds /\ Forall2 (member_said ds) ms fields.
Proof.
  intros s fields (m & h & packed & Hm & Hh & Hd). assert (Q := HQ). rewrite Forall_forall in Q.
  destruct (header_is names _ fuel input fs fs' HC Hg HR m h Hm (Q m Hm) Hh) as (order & dss & std & _ & _ & E & P & _ & F).
  rewrite E in Hd. apply in_app_or in Hd. destruct Hd as [Hd|Hd].
  - apply in_concat in Hd. destruct Hd as (xs & Hxs & Hd). destruct (Forall2_in_r _ _ _ _ _ _ F Hxs) as (d & Hdo & D).
    destruct D; simpl in Hd; try contradiction; destruct Hd as [Hd|[]]; try discriminate. injection Hd as <- <- <-. exists n, c, l. split; [reflexivity|]. split; [|assumption].
    apply in_flat_map. exists m. split; [exact Hm|]. apply (Permutation_in _ P). exact Hdo.
  - apply in_map_iff in Hd. destruct Hd as (x & X & _). discriminate.
Qed.

Lemma enum_declared : forall s, declares_enum (GenerateC names) fs' input s <->
  exists n c l, s = c_name n /\ In (DEnumerated n c l) ds.
Proof.
  intros s. assert (Q := HQ). rewrite Forall_forall in Q. split.
  - intros (m & h & packed & items & Hm & Hh & Hd).
    destruct (header_is names _ fuel input fs fs' HC Hg HR m h Hm (Q m Hm) Hh) as (order & dss & std & _ & _ & E & P & _ & F).
    rewrite E in Hd. apply in_app_or in Hd. destruct Hd as [Hd|Hd].
    + apply in_concat in Hd. destruct Hd as (xs & Hxs & Hd). destruct (Forall2_in_r _ _ _ _ _ _ F Hxs) as (d & Hdo & D).
      destruct D; simpl in Hd; try contradiction; destruct Hd as [Hd|[]]; try discriminate. injection Hd as <- <- <-. exists n, c, l. split; [reflexivity|].
      apply in_flat_map. exists m. split; [exact Hm|]. apply (Permutation_in _ P). exact Hdo.
    + apply in_map_iff in Hd. destruct Hd as (x & X & _). discriminate.
  - intros (n & c & l & -> & Hd). apply in_flat_map in Hd. destruct Hd as (m & Hm & Hd).
    destruct (header_declares names _ fuel input fs fs' m HC Hg HR Hm (Q m Hm)) as (text & h & order & dss & std & T & H & _ & _ & _ & E & P & _ & F).
    apply (Permutation_in _ (Permutation_sym P)) in Hd. destruct (Forall2_in_l _ _ _ _ _ _ F Hd) as (xs & Hxs & D).
    inversion D; subst. exists m, h, true. eexists. split; [exact Hm|]. split; [exists text; auto|].
    rewrite E. apply in_or_app. left. apply in_concat. eexists. split; [exact Hxs|]. left. reflexivity.
Qed.

Lemma declared_struct : forall n c ms, In (DSequence n c ms) ds ->
  exists fields, declares_struct (GenerateC names) fs' input (c_name n) fields /\ Forall2 (member_said ds) ms fields.
Proof.
  intros n c ms Hd. assert (Q := HQ). rewrite Forall_forall in Q. apply in_flat_map in Hd. destruct Hd as (m & Hm & Hd).
  destruct (header_declares names _ fuel input fs fs' m HC Hg HR Hm (Q m Hm)) as (text & h & order & dss & std & T & H & _ & _ & _ & E & P & _ & F).
  apply (Permutation_in _ (Permutation_sym P)) in Hd. destruct (Forall2_in_l _ _ _ _ _ _ F Hd) as (xs & Hxs & D).
  inversion D as [? ? ? fields FF| | |]; subst. exists fields. split; [|exact FF]. exists m, h, true. split; [exact Hm|]. split; [exists text; auto|].
  rewrite E. apply in_or_app. left. apply in_concat. eexists. split; [exact Hxs|]. left. reflexivity.
Qed.

Lemma source_fits : forall m, In m input ->
  exists order include texts, Permutation order (mod_defs m)
    /\ (include = "" \/ include = ("#include """ ++ c_name (mod_name m) ++ ".h""" ++ NL ++ NL)%string)
    /\ folder_get fs' (c_name (mod_name m) ++ ".c") = Some (source_head m ++ include ++ String.concat "" texts)%string
    /\ Forall2 (fun x text => initialises x text
         /\ (variable_fits (declares_struct (GenerateC names) fs' input) (declares_enum (GenerateC names) fs' input) text
             <-> member_clause_fits ds x)) (flat_map def_clauses order) texts.
Proof.
  intros m Hm. destruct (source_written names fuel input fs fs' m Hg HR Hm) as (order & inc & texts & P & F & I1 & I2 & E).
  exists order, inc, texts. split; [exact P|]. split.
  - destruct (string_dec inc "") as [->|N]; [auto|]. right. apply I1.
    assert (X : ends_with_clause order \/ ~ ends_with_clause order).
    { clear.
      induction order as [|d l IH] using rev_ind; [right; intros (a & d & b & E & _); destruct a; discriminate|].
      destruct (def_clauses d) as [|x r] eqn:C.
      - destruct (is_simple d) eqn:S.
        + destruct IH as [(a & y & b & -> & Hy & Hb)|IH].
          * left. exists a, y, (b ++ [d]). split; [rewrite <- app_assoc; reflexivity|]. split; [exact Hy|].
            apply Forall_app. auto.
          * right. intros (a & y & b & Q & Hy & Hb). destruct b as [|z b _] using rev_ind.
            -- apply app_inj_tail in Q. destruct Q as [_ <-]. congruence.
            -- change (y :: b ++ [z]) with ((y :: b) ++ [z]) in Q. rewrite app_assoc in Q. apply app_inj_tail in Q. destruct Q as [-> _].
               apply IH. exists a, y, b. split; [reflexivity|]. split; [exact Hy|]. apply Forall_app in Hb. tauto.
        + right. intros (a & y & b & Q & Hy & Hb). destruct b as [|z b _] using rev_ind.
          * apply app_inj_tail in Q. destruct Q as [_ <-]. congruence.
          * change (y :: b ++ [z]) with ((y :: b) ++ [z]) in Q. rewrite app_assoc in Q. apply app_inj_tail in Q. destruct Q as [_ <-].
            apply Forall_app in Hb. destruct Hb as [_ Hb]. inversion Hb; congruence.
      - left. exists l, d, []. split; [reflexivity|]. split; [congruence|constructor]. }
    destruct X as [X|X]; [exact X|]. destruct (N (I2 X)).
  - split; [exact E|].
    assert (Z : forall x, In x (flat_map def_clauses order) -> exists c ms k, In (DSequence (fst (fst x)) c ms) ds /\ In k ms
      /\ m_key k = snd (fst x) /\ m_with k = Some (snd x)).
    { intros x Hx. apply in_flat_map in Hx. destruct Hx as (d & Hd & Hx). apply (Permutation_in _ P) in Hd.
      destruct d as [n c l|n c l|n c l|n t c]; simpl in Hx; try contradiction. apply in_flat_map in Hx. destruct Hx as (k & Hk & Hx).
      destruct (m_with k) as [w|] eqn:Ew; [|destruct Hx]. destruct Hx as [<-|[]]. simpl. exists c, l, k. split; [|auto].
      apply in_flat_map. exists m. auto. }
    clear E I1 I2 P. induction F as [|x text l texts' H F IH]; constructor.
    + split; [exact H|]. destruct (Z x (or_introl eq_refl)) as (c & ms & k & I & Hk & Ek & Ew). destruct x as [[n key] w]. simpl in *.
      eapply (variable_fits_iff ds _ _ (bv_names _ _ (run_valid names _ fuel input fs fs' HC Hg HR)) (grammatical_definitions _ Hg)
        struct_declared enum_declared declared_struct); eassumption.
    + apply IH. intros y Hy. apply Z. right. exact Hy.
Qed.
End run.

(** ** Objects in headers *)
Lemma header_objects : forall names cmd fuel input fs fs' m h, config_command names cmd ->
  Forall (fun m => grammatical m = true) input -> run fuel cmd input fs = (fs', Ok tt) -> In m input -> quiet m ->
  header_of cmd fs' m h ->
  ((exists x, In x (h_decls h) /\ defines_variable x) <-> exists d, In d (mod_defs m) /\ has_variable cmd d).
Proof.
  intros names cmd fuel input fs fs' m h HC Hg HR Hm Q HH.
  destruct (header_is names cmd fuel input fs fs' HC Hg HR m h Hm Q HH) as (order & dss & std & _ & _ & E & P & _ & F).
  assert (CL : forall d, In d order -> forall x, In x (def_clauses d) -> exists n c l k, d = DSequence n c l /\ In k l /\ Spec_Valid.has_clause k = true).
  { intros d _ x Hx. destruct d as [n c l|n c l|n c l|n t c]; simpl in Hx; try contradiction. apply in_flat_map in Hx.
    destruct Hx as (k & Hk & Hx). exists n, c, l, k. split; [reflexivity|]. split; [exact Hk|]. unfold Spec_Valid.has_clause.
    destruct (m_with k); [reflexivity|destruct Hx]. }
  split.
  - intros (x & Hx & D). rewrite E in Hx. apply in_app_or in Hx. destruct Hx as [Hx|Hx].
    + apply in_concat in Hx. destruct Hx as (xs & Hxs & Hx). destruct (Forall2_in_r _ _ _ _ _ _ F Hxs) as (d & Hd & S).
      destruct S; simpl in Hx; try contradiction; destruct Hx as [<-|[]]; try contradiction. exists (DChoice n c l). split; [apply (Permutation_in _ P); exact Hd|exact I].
    + clear HR HC HH. unfold variables_said in Hx. destruct cmd as [| |ns|]; try contradiction. apply in_map_iff in Hx. destruct Hx as (y & <- & Hy).
      apply in_flat_map in Hy. destruct Hy as (d & Hd & Hy). destruct (CL d Hd y Hy) as (n & c & l & k & -> & Hk & W).
      exists (DSequence n c l). split; [apply (Permutation_in _ P); exact Hd|]. split; eauto.
  - intros (d & Hd & V). apply (Permutation_in _ (Permutation_sym P)) in Hd. destruct d as [n c l|n c l|n c l|n t c]; simpl in V; try contradiction.
    + destruct V as [(ns & ->) (k & Hk & W)]. exists (XVar (c_name n) (lowerize (c_name n))). split; [|exact I].
      rewrite E. apply in_or_app. right. unfold variables_said. apply in_map_iff. unfold Spec_Valid.has_clause in W.
      destruct (m_with k) as [w|] eqn:Ew; [|discriminate]. exists (n, m_key k, w). split; [reflexivity|].
      apply in_flat_map. exists (DSequence n c l). split; [exact Hd|]. simpl. apply in_flat_map. exists k. rewrite Ew. split; [exact Hk|left; reflexivity].
    + destruct (Forall2_in_l _ _ _ _ _ _ F Hd) as (xs & Hxs & S). inversion S; subst. eexists. split.
      * rewrite E. apply in_or_app. left. apply in_concat. eexists. split; [exact Hxs|]. left. reflexivity.
      * exact I.
Qed.
