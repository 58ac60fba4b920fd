(** * Proofs about exit codes *)
From Coq Require Import Lia Bool NArith.
From Verif Require Import Base PyNum PyStr Ast Main Source Spec_Grammar Cli Spec_Cli Tree Spec_Status Status Lib_proofs Str_proofs Cli_proofs.
Open Scope string_scope.

Lemma all_h_iff : forall s, all_h s = all_chars (fun c => Ascii.eqb c "h") s.
Proof. induction s as [|c r IH]; [reflexivity|]. cbn [all_h all_chars]. rewrite IH. reflexivity. Qed.

Section Words.
Variable opts : list string.
Hypothesis G : plain_opts opts.

Lemma classify_unknown : forall w, w <> "--" -> (classify opts w = Some WUnknown <-> stray opts w).
Proof.
  intros w W. unfold stray. destruct (dash_cases w) as [D|[->|[(c & r & -> & N)|[D|(D & _)]]]]; [| | |congruence|].
  - rewrite classify_plain by exact D. split; [discriminate|]. intros (H & _). tauto.
  - rewrite (classify_dash opts G). split; [discriminate|]. intros (_ & H & _). congruence.
  - destruct (in_dec string_dec (String "-" (String c r)) opts) as [I|I].
    { rewrite (classify_exact opts G _ I). split; [discriminate|]. intros (_ & _ & _ & _ & _ & H & _). exfalso. apply H.
      destruct (opt_dash _ G _ I) as [->|(d & x & E)]; [exists ""; reflexivity|]. injection E as -> _. congruence. }
    destruct (classify_short _ G c r N I) as [(-> & K)|(H & ->)].
    { split.
      - destruct K as [->|(ex & ->)]; discriminate.
      - intros (_ & _ & _ & _ & _ & K' & _). exfalso. apply K'. exists r. reflexivity. }
    rewrite <- negative_iff, <- has_space_iff. destruct (negative_number _ || has_space _) eqn:B.
    + split; [discriminate|]. intros (_ & _ & _ & A & A' & _). apply orb_true_iff in B. tauto.
    + split; [|reflexivity]. intros _. apply orb_false_iff in B as (-> & ->). split; [eexists; reflexivity|].
      do 4 (split; [congruence|]). split.
      * intros (x & E). cbn [append] in E. injection E as -> _. congruence.
      * intros p o (x & E). cbn [append] in E. injection E as -> _. congruence.
  - destruct (in_dec string_dec w opts) as [I|I].
    { rewrite (classify_exact opts G _ I). split; [discriminate|]. intros (_ & _ & _ & _ & _ & _ & H).
      destruct (H w w D (opt_no_equals _ G w I) (or_introl eq_refl) I). exists "". clear. induction w; cbn [append]; congruence. }
    destruct (partition_eq w) as [p ex] eqn:P. rewrite (classify_long _ w p ex D W I P).
    rewrite <- negative_iff, <- has_space_iff.
    assert (K : (forall q o, prefix_of "--" w -> no_equals q -> (w = q \/ exists v, w = q ++ "=" ++ v) -> In o opts -> ~ prefix_of q o)
                <-> filter (startswith p) opts = []).
    { split.
      - intros H. destruct (filter (startswith p) opts) as [|o l] eqn:F; [reflexivity|]. exfalso.
        assert (J : In o (filter (startswith p) opts)) by (rewrite F; left; reflexivity).
        apply filter_In in J as (J & S). apply startswith_iff in S. destruct (partition_before w p ex P) as (B1 & B2).
        exact (H p o D B1 B2 J S).
      - intros F q o _ Q1 Q2 J S. rewrite (partition_unique w p ex q P Q1 Q2) in S. apply startswith_iff in S.
        assert (Z : In o (filter (startswith p) opts)) by (apply filter_In; auto). rewrite F in Z. destruct Z. }
    rewrite K. clear K. destruct (match ex with Some _ => mem p opts | None => false end) eqn:X.
    { split; [discriminate|]. intros (_ & _ & _ & _ & _ & _ & F). destruct ex as [v|]; [|discriminate]. apply mem_In in X.
      assert (Z : In p (filter (startswith p) opts)).
      { apply filter_In. split; [exact X|]. apply startswith_iff. exists "". clear. induction p; cbn [append]; congruence. }
      rewrite F in Z. destruct Z. }
    destruct (filter (startswith p) opts) as [|o [|o' l]]; [|split; [discriminate|intros (_ & _ & _ & _ & _ & _ & H); discriminate]..].
    destruct (negative_number w || has_space w) eqn:B.
    + split; [discriminate|]. intros (_ & _ & _ & A & A' & _). apply orb_true_iff in B. tauto.
    + split; [|reflexivity]. intros _. apply orb_false_iff in B as (-> & ->). destruct D as (y & ->).
      split; [eexists; reflexivity|]. do 4 (split; [try discriminate; assumption|]). split; [|reflexivity].
      intros (x & E). discriminate.
Qed.

Lemma short_tuple : forall r, option_tuples opts ("-h" ++ r) = match r with "" => option_tuples opts "-h" | _ => [("-h", Some r)] end.
Proof.
  intros [|c r]; [reflexivity|]. unfold option_tuples. cbn [append].
  replace (startswith "--" (String "-" (String "h" (String c r)))) with false by reflexivity.
  assert (E : substring 2 (String.length (String "-" (String "h" (String c r)))) (String "-" (String "h" (String c r))) = String c r).
  { cbn [String.length substring]. f_equal. clear. rename r into s. 
    enough (H : forall s n, (String.length s <= n)%nat -> substring 0 n s = s) by (apply H; lia).
    clear. induction s as [|a s IH]; intros n L; [destruct n; reflexivity|]. cbn [String.length] in L.
    destruct n; [lia|]. cbn [substring]. rewrite IH by lia. reflexivity. }
  rewrite E. replace (substring 0 2 (String "-" (String "h" (String c r)))) with "-h" by (destruct r; reflexivity).
  assert (H := go_h _ G). assert (N := go_nodup _ G). assert (A := fun o I => opt_dash _ G o I). clear E G.
  assert (Z : forall l, (forall o, In o l -> exists c r, o = String "-" (String "-" (String c r))) ->
    flat_map (fun o => if String.eqb o "-h" then [("-h", Some (String c r))]
                       else if startswith (String "-" (String "h" (String c r))) o then [(o, @None string)] else []) l = []).
  { induction l as [|o l IH]; intros B; [reflexivity|]. cbn [flat_map]. rewrite IH by (intros; apply B; right; auto).
    destruct (B o (or_introl eq_refl)) as (d & x & ->). reflexivity. }
  transitivity (flat_map (fun o => if String.eqb o "-h" then [("-h", Some (String c r))]
                       else if startswith (String "-" (String "h" (String c r))) o then [(o, @None string)] else []) opts).
  { apply flat_map_ext. intros o. destruct (String.eqb_spec o "-h") as [->|]; reflexivity. }
  induction opts as [|o l IH]; [destruct H|]. inversion N as [|? ? N1 N2]; subst. cbn [flat_map].
  destruct (String.eqb_spec o "-h") as [->|D].
  - rewrite Z; [reflexivity|]. intros o I. destruct (A o (or_intror I)) as [->|K]; [tauto|exact K].
  - destruct H as [H|H]; [congruence|]. destruct (A o (or_introl eq_refl)) as [->|(d & x & ->)]; [congruence|].
    cbn [app startswith]. change (startswith (String "-" (String "h" (String c r))) (String "-" (String "-" (String d x)))) with false.
    cbn [app]. apply IH; auto. intros o I. apply A. right. exact I.
Qed.

(** -h and what is attached to it *)
Lemma classify_h : forall r, classify opts ("-h" ++ r) =
  Some (WOpt "-h" match r with "" => None | String c v => if Ascii.eqb c "=" then Some v else Some r end).
Proof.
  intros [|c v].
  - apply (classify_exact opts G). exact (go_h _ G).
  - assert (M : mem ("-h" ++ String c v) opts = false).
    { apply not_true_is_false. intros M. apply mem_In in M. destruct (opt_dash _ G _ M) as [E|(d & x & E)]; discriminate. }
    assert (T := short_tuple (String c v)). cbn [append] in *. unfold classify.
    cbn [Ascii.eqb Bool.eqb negb]. rewrite M. cbn [String.eqb]. rewrite T.
    cbn [partition_eq Ascii.eqb Bool.eqb]. destruct (Ascii.eqb_spec c "=") as [->|E].
    + rewrite (proj2 (mem_In "-h" opts) (go_h _ G)). reflexivity.
    + destruct (partition_eq v) as [a [b|]]; [|reflexivity].
      replace (mem (String "-" (String "h" (String c a))) opts) with false; [reflexivity|]. symmetry. apply not_true_is_false.
      intros K. apply mem_In in K. destruct (opt_dash _ G _ K) as [E'|(d & x & E')]; discriminate.
Qed.

Lemma classify_none : forall w, w <> "--" -> (classify opts w = None <-> ambiguous opts w).
Proof.
  intros w W. unfold ambiguous. destruct (dash_cases w) as [D|[->|[(c & r & -> & N)|[D|(D & _)]]]]; [| | |congruence|].
  - rewrite classify_plain by exact D. split; [discriminate|]. intros (_ & p & _ & _ & _ & (x & ->) & H & _). exfalso. apply D.
    destruct H as [->|(v & ->)]; eexists; reflexivity.
  - rewrite (classify_dash opts G). split; [discriminate|]. intros (_ & p & _ & _ & _ & (x & ->) & H & _).
    destruct H as [H|(v & H)]; discriminate.
  - split.
    + destruct (Ascii.eqb_spec c "h") as [->|NH]; [intros H; change (String "-" (String "h" r)) with ("-h" ++ r) in H; rewrite classify_h in H; discriminate|].
      destruct (in_dec string_dec (String "-" (String c r)) opts) as [I|I]; [rewrite (classify_exact opts G _ I); discriminate|].
      destruct (classify_short _ G c r N I) as [(-> & K)|(H & ->)]; [congruence|discriminate].
    + intros (_ & p & _ & _ & _ & (x & ->) & H & _). destruct H as [H|(v & H)]; cbn [append] in H; injection H as -> _; congruence.
  - destruct (in_dec string_dec w opts) as [I|I].
    { rewrite (classify_exact opts G _ I). split; [discriminate|]. intros (_ & p & o & o' & E & _ & H & H' & _).
      destruct H as [<-|(v & ->)]; [tauto|]. exfalso. assert (Q := opt_no_equals _ G _ I). unfold no_equals in Q. clear -Q.
      induction p as [|a p IH]; cbn [append all_chars] in Q; [discriminate|]. apply andb_prop in Q as (_ & Q). auto. }
    destruct (partition_eq w) as [p ex] eqn:P. rewrite (classify_long _ w p ex D W I P).
    assert (L := long_prefix w p ex D P). destruct (partition_before w p ex P) as (B1 & B2).
    destruct (match ex with Some _ => mem p opts | None => false end) eqn:X.
    { split; [discriminate|]. intros (_ & q & o & o' & E & _ & H & H' & _). destruct ex as [v|]; [|discriminate]. apply mem_In in X.
      rewrite (partition_unique w p _ q P E H) in H'. tauto. }
    assert (NI : ~ In p opts).
    { destruct ex as [v|]; [intros H; apply mem_In in H; congruence|]. apply partition_none in P as (-> & _). exact I. }
    assert (ND := NoDup_filter (startswith p) (go_nodup _ G)).
    assert (F : forall o, In o (filter (startswith p) opts) <-> In o opts /\ prefix_of p o).
    { intros o. rewrite filter_In, startswith_iff. reflexivity. }
    destruct (filter (startswith p) opts) as [|o1 [|o2 l]].
    + split; [discriminate|]. intros (_ & q & o & o' & E & _ & H & _ & I1 & _ & _ & P1 & _).
      rewrite (partition_unique w p _ q P E H) in P1. destruct (proj2 (F o) (conj I1 P1)).
    + split; [discriminate|]. intros (_ & q & o & o' & E & _ & H & _ & I1 & I2 & Nn & P1 & P2).
      rewrite (partition_unique w p _ q P E H) in P1, P2. destruct (proj2 (F o) (conj I1 P1)) as [->|[]].
      destruct (proj2 (F o') (conj I2 P2)) as [->|[]]. congruence.
    + split; [|reflexivity]. intros _. split; [exact W|]. exists p, o1, o2.
      destruct (proj1 (F o1) (or_introl eq_refl)) as (A1 & A2). destruct (proj1 (F o2) (or_intror (or_introl eq_refl))) as (A3 & A4).
      repeat split; auto. inversion ND as [|? ? N1 _]; subst. intros ->. apply N1. left. reflexivity.
Qed.
End Words.

Lemma classify_help : forall opts, plain_opts opts -> forall w ex, classify opts w = Some (WOpt "-h" ex) -> prefix_of "-h" w.
Proof.
  intros opts G w ex H. destruct (dash_cases w) as [D|[->|[(c & r & -> & N)|[->|(D & W)]]]].
  - rewrite classify_plain in H by exact D. discriminate.
  - rewrite (classify_dash opts G) in H. discriminate.
  - destruct (in_dec string_dec (String "-" (String c r)) opts) as [I|I].
    + destruct (opt_dash _ G _ I) as [->|(d & x & E)]; [exists ""; reflexivity|]. injection E as -> _. congruence.
    + destruct (classify_short _ G c r N I) as [(-> & _)|(_ & K)]; [exists r; reflexivity|]. rewrite K in H. destruct (_ || _); discriminate.
  - exfalso. assert (L : option_tuples opts "--" = map (fun o => (o, None)) (filter (startswith "--") opts)) by reflexivity.
    unfold classify in H. cbn [Ascii.eqb Bool.eqb negb String.eqb partition_eq] in H.
    destruct (mem "--" opts) eqn:M; [discriminate|]. rewrite L in H.
    assert (F : forall o, In o (filter (startswith "--") opts) -> o <> "-h").
    { intros o I ->. apply filter_In in I as (_ & I). discriminate. }
    destruct (filter (startswith "--") opts) as [|o [|o' l]]; cbn [map] in H; [discriminate| |discriminate].
    injection H as -> _. exact (F "-h" (or_introl eq_refl) eq_refl).
  - exfalso. destruct (in_dec string_dec w opts) as [I|I].
    { rewrite (classify_exact opts G w I) in H. injection H as -> _. destruct D as (x & D). discriminate. }
    destruct (partition_eq w) as [p ex'] eqn:P. rewrite (classify_long _ w p ex' D W I P) in H.
    assert (L := long_prefix w p ex' D P). destruct (match ex' with Some _ => mem p opts | None => false end) eqn:X.
    { injection H as -> _. destruct L as (x & L). discriminate. }
    assert (F : forall o, In o (filter (startswith p) opts) -> o <> "-h").
    { intros o J ->. apply filter_In in J as (_ & J). apply startswith_iff in J as (y & J). destruct L as (x & ->). discriminate. }
    destruct (filter (startswith p) opts) as [|o [|o' l]]; [destruct (_ || _); discriminate| |discriminate].
    injection H as -> _. exact (F "-h" (or_introl eq_refl) eq_refl).
Qed.

(** A word that ends the process with the help text or an exception *)
Definition ends_with (opts : list string) (s : stop) (w : string) : Prop :=
  exists o ex, classify opts w = Some (WOpt o ex) /\ is_help o = true /\ help_stop o ex = s.
Definition exactly (P : list string -> string -> Prop) (s : stop) : Prop := s <> Wrong
  /\ forall opts, plain_opts opts -> ~ P opts "--" /\ forall w, w <> "--" -> (P opts w <-> ends_with opts s w).

Lemma asks_help_ends : exactly asks_help Help.
Proof.
  split; [discriminate|]. intros opts G. split; [intros (H & _); congruence|]. intros w W. split.
  - intros (_ & [H|(hs & H & [->|(N & ->)])]).
    + exists "--help", None. split; [|auto]. apply (classify_opt opts G w "--help" None W); [discriminate|]. auto.
    + rewrite <- all_h_iff in H. exists "-h". rewrite (classify_h opts G). eexists. split; [reflexivity|]. split; [reflexivity|].
      destruct hs as [|c r]; [reflexivity|]. cbn [all_h] in H. apply andb_prop in H as (E & H). apply Ascii.eqb_eq in E. subst c.
      cbn. rewrite H. reflexivity.
    + rewrite <- all_h_iff in H. exists "-h". change ("-h=" ++ hs) with ("-h" ++ String "=" hs). rewrite (classify_h opts G).
      eexists. split; [reflexivity|]. split; [reflexivity|]. cbn. destruct hs; [congruence|]. rewrite H. reflexivity.
  - intros (o & ex & C & I & S). split; [exact W|]. unfold is_help in I. apply orb_true_iff in I as [I|I]; apply String.eqb_eq in I; subst o.
    + right. destruct (classify_help opts G w ex C) as (r & ->). rewrite (classify_h opts G) in C. injection C as <-.
      destruct r as [|c r]; [exists ""; auto|]. destruct (Ascii.eqb_spec c "=") as [->|E].
      * exists r. cbn [help_stop String.eqb Ascii.eqb Bool.eqb] in S. destruct (String.eqb_spec r "") as [|N]; [discriminate|].
        rewrite <- all_h_iff. destruct (all_h r); [|discriminate]. auto.
      * exists (String c r). rewrite <- all_h_iff. cbn [help_stop] in S. change (String.eqb "-h" "-h") with true in S.
        change (String.eqb (String c r) "") with false in S. cbv iota in S. destruct (all_h (String c r)); [|discriminate]. auto.
    + left. apply (classify_opt opts G w "--help" ex W) in C; [|discriminate].
      destruct C as [(-> & C)|(p & v & -> & _)]; [exact C|]. discriminate.
Qed.
Lemma empty_value_ends : exactly empty_value Crash.
Proof.
  split; [discriminate|]. intros opts G. split; [discriminate|]. intros w W. unfold empty_value. split.
  - intros ->. exists "-h". change "-h=" with ("-h" ++ "="). rewrite (classify_h opts G). eexists. split; [reflexivity|]. split; reflexivity.
  - intros (o & ex & C & I & S). unfold is_help in I. apply orb_true_iff in I as [I|I]; apply String.eqb_eq in I; subst o.
    + destruct (classify_help opts G w ex C) as (r & ->). rewrite (classify_h opts G) in C. injection C as <-.
      destruct r as [|c r]; [discriminate|]. destruct (Ascii.eqb_spec c "=") as [->|E].
      * cbn [help_stop String.eqb Ascii.eqb Bool.eqb] in S. destruct (String.eqb_spec r "") as [->|N]; [reflexivity|].
        destruct (all_h r); discriminate.
      * cbn [help_stop] in S. change (String.eqb "-h" "-h") with true in S.
        change (String.eqb (String c r) "") with false in S. cbv iota in S. destruct (all_h (String c r)); discriminate.
    + destruct ex; discriminate.
Qed.

Lemma choice_iff : forall o v, choice_ok o v = true <-> allowed o v.
Proof.
  intros o v. unfold choice_ok, allowed, endianness_of. destruct (String.eqb_spec o "--endianness") as [->|N]; [|cbn; tauto].
  cbn [negb orb]. destruct (String.eqb_spec v "little-endian"); [tauto|]. destruct (String.eqb_spec v "big-endian"); [tauto|].
  split; [discriminate|]. intros H. destruct (H eq_refl); congruence.
Qed.

(** ** The words of a command *)
Section Scan.
Variable opts : list string.
Hypothesis G : good_opts opts.
Variable P : list string -> string -> Prop.
Variable s : stop.
Hypothesis E : exactly P s.

Lemma scan_step : forall ws o v r, opt_step opts ws o v r ->
  scan opts ws = if choice_ok o v then scan opts r else Some Wrong.
Proof.
  intros ws o v r (N1 & N2 & H). assert (NH := proj2 (not_help o) (conj N1 N2)).
  destruct H as [(p & -> & A & B)|(p & -> & A & B)]; cbn [scan].
  - destruct (names_long opts G p o A N1) as (_ & W & _). rewrite (proj2 (String.eqb_neq _ _) W).
    rewrite (proj2 (classify_opt opts G p o None W N1) (or_introl (conj eq_refl A))), NH.
    assert (V := argument_neq opts v B). rewrite (proj2 (String.eqb_neq _ _) V), (proj2 (classify_arg opts G v V) B). reflexivity.
  - assert (W := joined_neq p v). rewrite (proj2 (String.eqb_neq _ _) W).
    destruct B as (B & V). apply String.eqb_neq in V.
    rewrite (proj2 (classify_opt opts G _ o (Some v) W N1)), NH, V; [reflexivity|]. right. exists p, v. auto.
Qed.

Lemma scan_reaches : forall n ws, (length ws < n)%nat -> scan opts ws = Some s ->
  exists a w r, ws = (a ++ w :: r)%list /\ passes opts a /\ P opts w.
Proof.
  destruct E as (NW & PE). induction n as [|n IH]; intros ws L H; [lia|]. destruct ws as [|w r]; [discriminate|]. cbn [scan] in H. cbn [length] in L.
  destruct (String.eqb_spec w "--") as [->|W]; [discriminate|].
  assert (skip : argument opts w \/ stray opts w -> scan opts r = Some s -> exists a w' r', (w :: r = a ++ w' :: r')%list /\ passes opts a /\ P opts w').
  { intros K S. destruct (IH r ltac:(lia) S) as (a & w' & r' & -> & Q & R). exists (w :: a), w', r'. split; [reflexivity|]. split; [|exact R].
    constructor; auto. }
  destruct (classify opts w) as [[|o ex|]|] eqn:C; [| | |congruence].
  - apply (classify_arg opts G w W) in C. auto.
  - destruct (is_help o) eqn:NH.
    + injection H as H. exists [], w, r. split; [reflexivity|]. split; [constructor|]. apply (proj2 (PE opts G) w W). exists o, ex. auto.
    + apply not_help in NH as (N1 & N2). apply (classify_opt opts G w o ex W N1) in C. destruct ex as [v|].
      * destruct C as [(C & _)|(p & v' & Ev & -> & B & C)]; [discriminate|]. injection Ev as <-.
        destruct (String.eqb_spec v "--") as [|V]; cbn [negb andb] in H; [congruence|]. destruct (choice_ok o v) eqn:Ch; [|congruence].
        apply choice_iff in Ch. destruct (IH r ltac:(lia) H) as (a & w' & r' & -> & Q & R).
        exists ((p ++ "=" ++ v) :: a), w', r'. split; [reflexivity|]. split; [|exact R]. eapply pass_joined; eauto.
      * destruct C as [(_ & C)|(p & v' & Ev & _)]; [|discriminate]. destruct r as [|v r]; [congruence|].
        destruct (String.eqb_spec v "--") as [->|V]; [congruence|].
        destruct (classify opts v) as [[| |]|] eqn:D; try congruence. apply (classify_arg opts G v V) in D.
        destruct (choice_ok o v) eqn:Ch; [|congruence]. apply choice_iff in Ch. cbn [length] in L.
        destruct (IH r ltac:(lia) H) as (a & w' & r' & -> & Q & R). exists (w :: v :: a), w', r'. split; [reflexivity|]. split; [|exact R].
        eapply pass_separate; eauto.
  - apply (classify_unknown opts G w W) in C. auto.
Qed.
Lemma scan_passes : forall a, passes opts a -> forall r, scan opts (a ++ r) = scan opts r.
Proof.
  intros a H. induction H as [|w r H _ IH|p o v r N N1 N2 A C _ IH|p o v r N N1 N2 B V C _ IH]; intros r'; [reflexivity| | |].
  - cbn [app scan]. assert (W : w <> "--") by (destruct H as [H|H]; [exact (argument_neq opts w H)|apply H]).
    rewrite (proj2 (String.eqb_neq _ _) W). destruct H as [H|H].
    + rewrite (proj2 (classify_arg opts G w W) H). apply IH.
    + rewrite (proj2 (classify_unknown opts G w W) H). apply IH.
  - cbn [app]. rewrite (scan_step (p :: v :: r ++ r')%list o v (r ++ r')%list).
    + rewrite (proj2 (choice_iff o v) C). apply IH.
    + split; [exact N1|]. split; [exact N2|]. left. eauto.
  - cbn [app]. rewrite (scan_step ((p ++ "=" ++ v) :: (r ++ r')%list) o v (r ++ r')%list).
    + rewrite (proj2 (choice_iff o v) C). apply IH.
    + split; [exact N1|]. split; [exact N2|]. right. eauto.
Qed.
Lemma scan_iff : forall ws, scan opts ws = Some s <-> exists a w r, ws = (a ++ w :: r)%list /\ passes opts a /\ P opts w.
Proof.
  intros ws. split; [apply (scan_reaches (S (length ws))); lia|]. intros (a & w & r & -> & H & K). rewrite (scan_passes a H).
  destruct E as (NW & PE). destruct (PE opts G) as (K0 & K1). cbn [scan]. destruct (String.eqb_spec w "--") as [->|W]; [tauto|].
  apply (K1 w W) in K as (o & ex & -> & -> & ->). reflexivity.
Qed.

Lemma scan_consume : forall n ws st vals x, (length ws < n)%nat -> consume opts st vals ws = Some x -> scan opts ws <> Some s.
Proof.
  destruct E as (NW & _). induction n as [|n IH]; intros ws st vals x L H; [lia|].
  destruct (consume_inv opts G _ _ _ _ H) as [(-> & _)|[(r & -> & _)|[(w & r & -> & A & _ & C)|(o & v & r & T & C)]]]; [discriminate|discriminate| |].
  - assert (W := argument_neq opts w A). cbn [scan]. rewrite (proj2 (String.eqb_neq _ _) W), (proj2 (classify_arg opts G w W) A).
    cbn [length] in L. apply (IH r _ _ _ ltac:(lia) C).
  - rewrite (scan_step ws o v r T). destruct (choice_ok o v); [|congruence]. assert (Q := step_length opts _ _ _ _ T).
    apply (IH r _ _ _ ltac:(lia) C).
Qed.
End Scan.

Lemma ambiguous_iff : forall opts, good_opts opts -> forall ws, some_ambiguous opts ws = false <->
  forall x y z, (ws = x ++ y :: z)%list -> ~ In "--" x -> ~ ambiguous opts y.
Proof.
  intros opts G. induction ws as [|w r IH].
  - split; [|reflexivity]. intros _ [|] y z H; discriminate.
  - cbn [some_ambiguous]. destruct (String.eqb_spec w "--") as [->|W].
    + split; [|reflexivity]. intros _ [|a x] y z H N; cbn [app] in H; injection H as <- H; [intros (K & _); congruence|].
      exfalso. apply N. left. reflexivity.
    + destruct (classify opts w) eqn:C.
      * rewrite IH. split.
        -- intros H [|a x] y z K N; cbn [app] in K; injection K as <- K.
           ++ intros A. apply (classify_none opts G w W) in A. congruence.
           ++ apply (H x y z K). intros I. apply N. right. exact I.
        -- intros H x y z K N. apply (H (w :: x) y z); [rewrite K; reflexivity|]. intros [I|I]; [congruence|tauto].
      * split; [discriminate|]. intros H. exfalso. apply (H [] w r eq_refl); [intros []|]. apply (classify_none opts G w W). exact C.
Qed.

Lemma options_named : forall name opts, command_options name opts <-> exists c, command_named name = Some c /\ opts = options_of c.
Proof.
  intros name opts. split.
  - intros []; [exists CosmosCmd|exists CfsCmd|exists CCmd|exists BinaryCmd]; auto.
  - intros (c & H & ->). apply named in H as ->. destruct c; constructor.
Qed.

Lemma command_stop_iff : forall P s, exactly P s -> forall c ws, command_stop c ws = s <->
  exists a w r, ws = (a ++ w :: r)%list /\ passes (options_of c) a /\ P (options_of c) w
    /\ forall x y z, (ws = x ++ y :: z)%list -> ~ In "--" x -> ~ ambiguous (options_of c) y.
Proof.
  intros P s E c ws. assert (G := good_options c). unfold command_stop. assert (NW := proj1 E).
  assert (U := ambiguous_iff _ G ws). destruct (some_ambiguous (options_of c) ws).
  - split; [congruence|]. intros (a & w & r & _ & _ & _ & H). apply U in H. discriminate.
  - assert (K := scan_iff _ G P s E ws). destruct (scan (options_of c) ws) as [s'|].
    + split.
      * intros ->. destruct (proj1 K eq_refl) as (a & w & r & A). exists a, w, r. tauto.
      * intros (a & w & r & A). assert (Some s' = Some s) by (apply K; exists a, w, r; tauto). congruence.
    + split; [congruence|]. intros (a & w & r & A). assert (None = Some s) by (apply K; exists a, w, r; tauto). discriminate.
Qed.

Lemma plain_help : plain_opts help_options.
Proof.
  constructor.
  - left. reflexivity.
  - intros o [<-|[<-|[]]]; [auto|]. right. split; [exists "help"; reflexivity|reflexivity].
  - intros [H|[H|[]]]; discriminate.
  - constructor; [intros [H|[]]; discriminate|]. constructor; [intros []|constructor].
Qed.

Lemma stray_passed : forall u, Forall (stray help_options) u -> forall r, argparse_stop (u ++ r) = argparse_stop r.
Proof.
  intros u F r. induction F as [|w u H _ IH]; [reflexivity|]. cbn [app argparse_stop]. assert (W : w <> "--") by apply H.
  rewrite (proj2 (String.eqb_neq _ _) W). fold help_options.
  rewrite (proj2 (classify_unknown help_options plain_help w W) H). exact IH.
Qed.

Theorem stop_iff : forall P s, exactly P s -> forall words, argparse_stop words = s <-> reaches P words.
Proof.
  intros P s E words. assert (NW := proj1 E). destruct (proj2 E help_options plain_help) as (K0 & K1). split.
  - induction words as [|w r IH]; intros H; [cbn in H; congruence|]. cbn [argparse_stop] in H.
    destruct (String.eqb_spec w "--") as [->|W]; [congruence|]. fold help_options in H.
    destruct (classify help_options w) as [[|o ex|]|] eqn:C; [| | |congruence].
    + destruct (command_named w) as [c|] eqn:N; [|congruence]. apply (command_stop_iff P s E) in H as (a & x & r' & -> & A & B & D).
      apply (reach_command P [] w (options_of c) a x r'); auto. apply options_named. eauto.
    + apply (reach_first P [] w r); [constructor|]. apply (K1 w W). exists o, ex. split; [exact C|]. split; [|exact H].
      destruct (is_help o) eqn:I; [reflexivity|]. exfalso. apply not_help in I as (N1 & N2).
      apply (classify_opt help_options plain_help w o ex W N1) in C.
      assert (J : exists p, names_option help_options p o) by (destruct C as [(_ & C)|(p & v & _ & _ & _ & C)]; eauto).
      destruct J as (p & [<-|[<-|[]]] & _); congruence.
    + apply (classify_unknown help_options plain_help w W) in C. destruct (IH H) as [u w' r' F A|u name opts a w' r' F A B D T].
      * apply (reach_first P (w :: u)); [constructor|]; auto.
      * apply (reach_command P (w :: u) name opts a w' r'); auto.
  - intros [u w r F A|u name opts a w r F A B D T]; rewrite (stray_passed u F).
    + cbn [argparse_stop]. destruct (String.eqb_spec w "--") as [->|W]; [tauto|]. fold help_options.
      apply (K1 w W) in A as (o & ex & -> & _ & ->). reflexivity.
    + apply options_named in A as (c & N & ->). cbn [argparse_stop]. fold help_options.
      assert (Z : name <> "--" /\ ~ prefix_of "-" name).
      { apply named in N as ->. split; [destruct c; discriminate|]. intros (x & H). destruct c; discriminate. }
      rewrite (proj2 (String.eqb_neq _ _) (proj1 Z)), (classify_plain help_options name (proj2 Z)), N.
      apply (command_stop_iff P s E). exists a, w, r. auto.
Qed.

Theorem stop_or_line : forall P s, exactly P s -> forall words a dir, command_line words a dir -> ~ reaches P words.
Proof.
  intros P s E words a dir L R. apply (stop_iff P s E) in R. apply parse_args_iff in L. unfold parse_args in L.
  destruct words as [|w r]; [discriminate|]. destruct (command_named w) as [c|] eqn:N; [|discriminate].
  destruct (consume (options_of c) PNone [] r) as [x|] eqn:C; [|discriminate].
  cbn [argparse_stop] in R. fold help_options in R.
  assert (Z : w <> "--" /\ ~ prefix_of "-" w).
  { apply named in N as ->. split; [destruct c; discriminate|]. intros (y & H). destruct c; discriminate. }
  rewrite (proj2 (String.eqb_neq _ _) (proj1 Z)), (classify_plain help_options w (proj2 Z)), N in R.
  assert (K := scan_consume _ (good_options c) P s E (S (length r)) r _ _ _ ltac:(lia) C).
  unfold command_stop in R. assert (NW := proj1 E). destruct (some_ambiguous _ _); [congruence|].
  destruct (scan (options_of c) r); congruence.
Qed.

(** ** Exit codes *)
Lemma code_line : forall fuel cwd words t a dir, command_line words a dir ->
  exists t' e, start_in fuel cwd words t = (t', Some e)
    /\ exit_code fuel cwd words t = match e with Finished => Some 0%N | Hangs => None | _ => Some 1%N end.
Proof.
  intros fuel cwd words t a dir L. apply parse_args_iff in L. unfold exit_code.
  destruct (start_in fuel cwd words t) as [t' [e|]] eqn:S.
  - exists t', e. split; [reflexivity|]. reflexivity.
  - exfalso. unfold start_in in S. rewrite L in S. destruct (read_inputs t cwd (input_paths a)); [|discriminate].
    destruct (on_modules _ _ _) as [? ?]. discriminate.
Qed.
Lemma code_no_line : forall fuel cwd words t, (~ exists a dir, command_line words a dir) ->
  start_in fuel cwd words t = (t, None)
  /\ exit_code fuel cwd words t = Some (match argparse_stop words with Help => 0 | Wrong => 2 | Crash => 1 end)%N.
Proof.
  intros fuel cwd words t H. unfold exit_code, start_in. destruct (parse_args words) as [[a dir]|] eqn:A; [|auto].
  exfalso. apply H. exists a, dir. apply parse_args_iff. exact A.
Qed.
Lemma line_dec : forall words, (exists a dir, command_line words a dir) \/ ~ exists a dir, command_line words a dir.
Proof.
  intros words. destruct (parse_args words) as [[a dir]|] eqn:A.
  - left. exists a, dir. apply parse_args_iff. exact A.
  - right. intros (a & dir & L). apply parse_args_iff in L. congruence.
Qed.

Theorem code_zero : forall fuel cwd words t, exit_code fuel cwd words t = Some 0%N <->
  (exists t', start_in fuel cwd words t = (t', Some Finished)) \/ reaches asks_help words.
Proof.
  intros fuel cwd words t. destruct (line_dec words) as [(a & dir & L)|L].
  - destruct (code_line fuel cwd words t a dir L) as (t' & e & S & ->). rewrite S.
    assert (N := stop_or_line _ _ asks_help_ends words a dir L). split.
    + intros H. left. exists t'. destruct e; discriminate || reflexivity.
    + intros [(t'' & H)|H]; [|tauto]. injection H as _ ->. reflexivity.
  - destruct (code_no_line fuel cwd words t L) as (-> & ->). rewrite <- (stop_iff _ _ asks_help_ends words).
    destruct (argparse_stop words).
    + tauto.
    + split; [discriminate|]. intros [(t' & H)|H]; discriminate.
    + split; [discriminate|]. intros [(t' & H)|H]; discriminate.
Qed.
Theorem code_two : forall fuel cwd words t, exit_code fuel cwd words t = Some 2%N <->
  (~ exists a dir, command_line words a dir) /\ ~ reaches asks_help words /\ ~ reaches empty_value words.
Proof.
  intros fuel cwd words t. destruct (line_dec words) as [(a & dir & L)|L].
  - destruct (code_line fuel cwd words t a dir L) as (t' & e & S & ->). split; [destruct e; discriminate|].
    intros (H & _). destruct H. eauto.
  - destruct (code_no_line fuel cwd words t L) as (_ & ->).
    rewrite <- (stop_iff _ _ asks_help_ends words), <- (stop_iff _ _ empty_value_ends words).
    destruct (argparse_stop words).
    + split; [discriminate|]. intros (_ & H & _). congruence.
    + split; [|reflexivity]. intros _. split; [exact L|]. split; discriminate.
    + split; [discriminate|]. intros (_ & _ & H). congruence.
Qed.
Theorem code_one : forall fuel cwd words t, exit_code fuel cwd words t = Some 1%N <->
  (exists t' e, start_in fuel cwd words t = (t', Some e) /\ e <> Finished /\ e <> Hangs) \/ reaches empty_value words.
Proof.
  intros fuel cwd words t. destruct (line_dec words) as [(a & dir & L)|L].
  - destruct (code_line fuel cwd words t a dir L) as (t' & e & S & ->). rewrite S.
    assert (N := stop_or_line _ _ empty_value_ends words a dir L). split.
    + intros H. left. exists t', e. split; [reflexivity|]. split; intros ->; discriminate.
    + intros [(t'' & e' & H & N1 & N2)|H]; [|tauto]. injection H as _ ->. destruct e'; congruence.
  - destruct (code_no_line fuel cwd words t L) as (-> & ->). rewrite <- (stop_iff _ _ empty_value_ends words).
    destruct (argparse_stop words).
    + split; [discriminate|]. intros [(t' & e & H & _)|H]; discriminate.
    + split; [discriminate|]. intros [(t' & e & H & _)|H]; discriminate.
    + tauto.
Qed.
Theorem code_none : forall fuel cwd words t, exit_code fuel cwd words t = None <-> exists t', start_in fuel cwd words t = (t', Some Hangs).
Proof.
  intros fuel cwd words t. unfold exit_code. destruct (start_in fuel cwd words t) as [t' [[]|]]; cbn [snd];
    (split; [try discriminate; eauto|intros (t'' & H); congruence]).
Qed.
Theorem code_line_only : forall fuel cwd words t a dir, command_line words a dir ->
  exists t' e, start_in fuel cwd words t = (t', Some e) /\ ~ reaches asks_help words /\ ~ reaches empty_value words.
Proof.
  intros fuel cwd words t a dir L. destruct (code_line fuel cwd words t a dir L) as (t' & e & S & _). exists t', e. split; [exact S|].
  split; [exact (stop_or_line _ _ asks_help_ends words a dir L)|exact (stop_or_line _ _ empty_value_ends words a dir L)].
Qed.
Theorem code_unchanged : forall fuel cwd words t, reaches asks_help words \/ reaches empty_value words \/ exit_code fuel cwd words t = Some 2%N ->
  start_in fuel cwd words t = (t, None).
Proof.
  intros fuel cwd words t H. destruct (line_dec words) as [(a & dir & L)|L]; [|exact (proj1 (code_no_line fuel cwd words t L))].
  exfalso. destruct H as [H|[H|H]].
  - exact (stop_or_line _ _ asks_help_ends words a dir L H).
  - exact (stop_or_line _ _ empty_value_ends words a dir L H).
  - apply code_two in H as (H & _). eauto.
Qed.
