(** * Proofs about command lines *)
From Coq Require Import Lia ZifyBool ZifyNat ZifyN.
From Verif Require Import Base PyStr Ast GenBinary Main Source Spec_Grammar Cli Spec_Cli Lib_proofs.
Open Scope string_scope.

(** ** Strings *)
Lemma startswith_iff : forall p s, startswith p s = true <-> prefix_of p s.
Proof.
  unfold startswith, prefix_of. induction p as [|c p IH]; intros [|d s]; cbn [String.prefix append]; split; intros H; eauto.
  - discriminate.
  - destruct H as (r & H). discriminate.
  - destruct (Ascii.ascii_dec c d) as [->|]; [|discriminate]. apply IH in H. destruct H as (r & ->). eauto.
  - destruct H as (r & H). injection H as -> ->. destruct (Ascii.ascii_dec c c) as [_|N]; [apply IH; eauto|congruence].
Qed.

Lemma partition_none : forall w p, partition_eq w = (p, None) <-> w = p /\ no_equals w.
Proof.
  unfold no_equals. induction w as [|c w IH]; intros p; cbn [partition_eq all_chars].
  - split; [intros H; injection H as <-; auto|intros (<- & _); reflexivity].
  - destruct (Ascii.eqb c "=") eqn:E; cbn [negb andb].
    + split; [discriminate|intros (_ & H); discriminate].
    + destruct (partition_eq w) as [a [b|]] eqn:P.
      * split; [discriminate|]. intros (_ & H). assert (K := proj2 (IH w) (conj eq_refl H)). congruence.
      * destruct (proj1 (IH a) eq_refl) as (<- & N). split; [intros H; injection H as <-; auto|intros (<- & _); reflexivity].
Qed.
Lemma partition_some : forall w p v, partition_eq w = (p, Some v) <-> no_equals p /\ w = p ++ "=" ++ v.
Proof.
  unfold no_equals. induction w as [|c w IH]; intros p v; cbn [partition_eq].
  - split; [discriminate|]. intros (_ & H). destruct p; discriminate.
  - destruct (Ascii.eqb c "=") eqn:E.
    + apply Ascii.eqb_eq in E as ->. split.
      * intros H. injection H as <- <-. auto.
      * intros (N & H). destruct p as [|d p]; cbn [append] in H; [injection H as ->; reflexivity|].
        injection H as <- _. cbn in N. discriminate.
    + destruct (partition_eq w) as [a b] eqn:P. split.
      * intros H. injection H as <- ->. destruct (proj1 (IH a v) eq_refl) as (N & ->). cbn [all_chars]. rewrite E. auto.
      * intros (N & H). destruct p as [|d p]; cbn [append] in H; [injection H as -> _; discriminate|].
        injection H as <- ->. cbn [all_chars] in N. rewrite E in N. assert (K := proj2 (IH p v) (conj N eq_refl)). injection K as <- <-. reflexivity.
Qed.
Lemma no_equals_prefix : forall p s, prefix_of p s -> no_equals s -> no_equals p.
Proof.
  unfold no_equals. intros p s (r & ->). induction p as [|c p IH]; [reflexivity|]. cbn [append all_chars]. intros H.
  apply andb_prop in H as (H1 & H2). rewrite H1. auto.
Qed.

Lemma has_space_iff : forall w, has_space w = true <-> exists a b, w = a ++ " " ++ b.
Proof.
  induction w as [|c w IH]; cbn [has_space].
  - split; [discriminate|]. intros ([|] & b & H); discriminate.
  - destruct (Ascii.eqb c " ") eqn:E; cbn [orb].
    + apply Ascii.eqb_eq in E as ->. split; [|reflexivity]. intros _. exists "", w. reflexivity.
    + rewrite IH. split.
      * intros (a & b & ->). exists (String c a), b. reflexivity.
      * intros ([|d a] & b & H); cbn [append] in H; [injection H as -> _; discriminate|]. injection H as _ ->. exists a, b. reflexivity.
Qed.

Lemma digits_cons : forall c s, digits (String c s) <-> is_digit c = true /\ digits s.
Proof. intros c s. unfold digits. cbn [all_chars]. apply andb_true_iff. Qed.
Definition end_of (e : string) : Prop := e = "" \/ e = String LF "".
Lemma LF_not_digit : is_digit LF = false. Proof. reflexivity. Qed.

Lemma digits_dot_true : forall s some, digits_dot true some s = true <->
  exists d e, digits d /\ (d <> "" \/ some = true) /\ end_of e /\ s = d ++ e.
Proof.
  induction s as [|c s IH]; intros some; cbn [digits_dot].
  - split.
    + intros ->. exists "", "". repeat split; auto. left. reflexivity.
    + intros (d & e & _ & [N| ->] & _ & H); [|reflexivity]. destruct d; [congruence|discriminate].
  - destruct (is_digit c) eqn:D.
    + rewrite IH. split.
      * intros (d & e & A & _ & B & ->). exists (String c d), e. rewrite digits_cons. repeat split; auto. left. discriminate.
      * intros (d & e & A & _ & B & H). destruct d as [|c' d]; cbn [append] in H.
        { destruct B as [->| ->]; [discriminate|]. injection H as -> ->. discriminate. }
        injection H as <- ->. apply digits_cons in A as (_ & A). exists d, e. auto.
    + rewrite andb_false_r. destruct (Ascii.eqb c LF && some) eqn:L.
      * apply andb_prop in L as (L & ->). apply Ascii.eqb_eq in L as ->. rewrite String.eqb_eq. split.
        { intros ->. exists "", (String LF ""). repeat split; auto. right. reflexivity. }
        intros (d & e & A & _ & B & H). destruct d as [|c' d]; cbn [append] in H.
        { destruct B as [->| ->]; [discriminate|]. injection H as ->. reflexivity. }
        injection H as <- _. apply digits_cons in A as (A & _). discriminate.
      * split; [discriminate|]. intros (d & e & A & B & C & H). exfalso. destruct d as [|c' d]; cbn [append] in H.
        { destruct C as [->| ->]; [discriminate|]. destruct B as [B| ->]; [congruence|]. injection H as -> _. discriminate. }
        injection H as <- _. apply digits_cons in A as (A & _). congruence.
Qed.
Lemma digits_dot_false : forall s some, digits_dot false some s = true <->
  (exists d e, digits d /\ (d <> "" \/ some = true) /\ end_of e /\ s = d ++ e)
  \/ exists i d e, digits i /\ digits d /\ d <> "" /\ end_of e /\ s = i ++ "." ++ d ++ e.
Proof.
  induction s as [|c s IH]; intros some; cbn [digits_dot].
  - split.
    + intros ->. left. exists "", "". repeat split; auto. left. reflexivity.
    + intros [(d & e & _ & [N| ->] & _ & H)|(i & d & e & _ & _ & _ & _ & H)]; [|reflexivity|].
      * destruct d; [congruence|discriminate].
      * destruct i; discriminate.
  - destruct (is_digit c) eqn:D.
    + rewrite IH. split.
      * intros [(d & e & A & _ & B & ->)|(i & d & e & A & B & C & F & ->)].
        { left. exists (String c d), e. rewrite digits_cons. repeat split; auto. left. discriminate. }
        right. exists (String c i), d, e. rewrite digits_cons. auto.
      * intros [(d & e & A & _ & B & H)|(i & d & e & A & B & C & F & H)].
        { left. destruct d as [|c' d]; cbn [append] in H.
          { destruct B as [->| ->]; [discriminate|]. injection H as -> ->. discriminate. }
          injection H as <- ->. apply digits_cons in A as (_ & A). exists d, e. auto. }
        right. destruct i as [|c' i]; cbn [append] in H; [injection H as -> _; discriminate|].
        injection H as <- ->. apply digits_cons in A as (_ & A). exists i, d, e. auto.
    + destruct (Ascii.eqb c ".") eqn:P; cbn [andb negb].
      * apply Ascii.eqb_eq in P as ->. rewrite digits_dot_true. split.
        { intros (d & e & A & [N|N] & B & ->); [|discriminate]. right. exists "", d, e. repeat split; auto. }
        intros [(d & e & A & _ & B & H)|(i & d & e & A & B & C & F & H)].
        { destruct d as [|c' d]; cbn [append] in H; [destruct B as [->| ->]; discriminate|].
          injection H as <- _. apply digits_cons in A as (A & _). discriminate. }
        destruct i as [|c' i]; cbn [append] in H.
        { injection H as ->. exists d, e. auto. }
        injection H as <- _. apply digits_cons in A as (A & _). discriminate.
      * assert (Q : forall X Y : Prop, ~ Y -> (X \/ Y <-> X)) by tauto. rewrite Q; clear Q.
        2:{ intros (i & d & e & A & B & C & F & H). destruct i as [|c' i]; cbn [append] in H; [injection H as -> _; discriminate|].
            injection H as <- _. apply digits_cons in A as (A & _). congruence. }
        rewrite <- (digits_dot_true (String c s) some). cbn [digits_dot]. rewrite D, P. reflexivity.
Qed.
Lemma negative_iff : forall w, negative_number w = true <-> negative w.
Proof.
  intros w. unfold negative_number, negative. destruct w as [|c w].
  - split; [discriminate|]. intros (d & e & _ & _ & _ & [H|(i & _ & H)]); discriminate.
  - rewrite andb_true_iff, Ascii.eqb_eq, digits_dot_false. split.
    + intros (-> & [(d & e & A & [N|N] & B & ->)|(i & d & e & A & B & C & F & ->)]); [|discriminate|].
      * exists d, e. auto.
      * exists d, e. repeat split; auto. right. exists i. auto.
    + intros (d & e & A & N & B & [H|(i & I & H)]); cbn [append] in H; injection H as -> ->; (split; [reflexivity|]).
      * left. exists d, e. auto.
      * right. exists i, d, e. auto.
Qed.

(** ** Classification of words *)
Record plain_opts (opts : list string) : Prop := {
  go_h : In "-h" opts;
  go_all : forall o, In o opts -> o = "-h" \/ prefix_of "--" o /\ no_equals o;
  go_dash : ~ In "--" opts;
  go_nodup : NoDup opts }.
Record good_opts (opts : list string) : Prop := {
  go_plain :> plain_opts opts;
  go_two : exists a b, In a opts /\ In b opts /\ prefix_of "--" a /\ prefix_of "--" b /\ a <> b }.

Lemma filter_single : forall A (f : A -> bool) l x, NoDup l ->
  (filter f l = [x] <-> In x l /\ f x = true /\ forall y, In y l -> f y = true -> y = x).
Proof.
  intros A f l x N. split.
  - intros E. assert (I : In x (filter f l)) by (rewrite E; left; reflexivity). apply filter_In in I as (I & F).
    repeat split; auto. intros y Iy Fy. assert (G : In y (filter f l)) by (apply filter_In; auto). rewrite E in G.
    destruct G as [G|[]]; auto.
  - intros (I & F & U). apply (NoDup_filter f) in N.
    assert (H : forall y, In y (filter f l) <-> y = x).
    { intros y. rewrite filter_In. split; [intros (Iy & Fy); auto|intros ->; auto]. }
    destruct (filter f l) as [|a [|b r]].
    + exfalso. apply (proj2 (H x) eq_refl).
    + f_equal. apply H. left. reflexivity.
    + exfalso. inversion N as [|? ? N1 _]; subst. apply N1.
      rewrite (proj1 (H a) (or_introl eq_refl)), (proj1 (H b) (or_intror (or_introl eq_refl))). left. reflexivity.
Qed.

Section Classify.
Variable opts : list string.
Hypothesis G : plain_opts opts.

Lemma opt_dash : forall o, In o opts -> o = "-h" \/ exists c r, o = String "-" (String "-" (String c r)).
Proof.
  intros o I. destruct (go_all _ G o I) as [H|((r & ->) & _)]; [auto|]. right. cbn [append] in *.
  destruct r as [|c r]; [destruct (go_dash _ G I)|]. eauto.
Qed.
Lemma opt_no_equals : forall o, In o opts -> no_equals o.
Proof. intros o I. destruct (go_all _ G o I) as [->|(_ & H)]; [reflexivity|exact H]. Qed.

(** words that start with one dash *)
Lemma short_tuples : forall c r, c <> "-"%char ->
  option_tuples opts (String "-" (String c r)) <> [] <-> c = "h"%char.
Proof.
  intros c r N. unfold option_tuples.
  replace (startswith "--" (String "-" (String c r))) with false.
  2:{ symmetry. apply Bool.not_true_is_false. intros H. apply startswith_iff in H as (x & H). cbn [append] in H. injection H as -> _. congruence. }
  change (substring 0 2 (String "-" (String c r))) with (String "-" (String c (substring 0 0 r))).
  replace (substring 0 0 r) with "" by (destruct r; reflexivity). split.
  - destruct (Ascii.ascii_dec c "h") as [E|E]; [auto|]. intros H. exfalso. apply H. clear H.
    assert (A : forall o, In o opts -> (if String.eqb o (String "-" (String c "")) then [(o, Some (substring 2 (String.length (String "-" (String c r))) (String "-" (String c r))))]
              else if startswith (String "-" (String c r)) o then [(o, None)] else []) = @nil (string * option string)).
    { intros o I. destruct (opt_dash o I) as [->|(d & x & ->)].
      - destruct (String.eqb_spec "-h" (String "-" (String c ""))) as [e|_]; [injection e as <-; congruence|].
        destruct (startswith _ "-h") eqn:S; [|reflexivity]. apply startswith_iff in S as (y & S). cbn [append] in S.
        injection S as <- _. congruence.
      - destruct (String.eqb_spec (String "-" (String "-" (String d x))) (String "-" (String c ""))) as [e|_]; [discriminate|].
        destruct (startswith _ _) eqn:S; [|reflexivity]. apply startswith_iff in S as (y & S). cbn [append] in S.
        injection S as <- _. congruence. }
    clear G. induction opts as [|o l IH]; [reflexivity|]. cbn [flat_map]. rewrite A by (left; reflexivity).
    apply IH. intros o' I. apply A. right. exact I.
  - intros -> H. assert (I := go_h _ G). apply in_split in I as (a & b & E). rewrite E in H.
    rewrite flat_map_app in H. apply app_eq_nil in H as (_ & H). cbn [flat_map] in H. apply app_eq_nil in H as (H & _). discriminate.
Qed.
Lemma short_help : forall c r o ex, c <> "-"%char ->
  In (o, ex) (option_tuples opts (String "-" (String c r))) -> o = "-h".
Proof.
  intros c r o ex N I. unfold option_tuples in I.
  replace (startswith "--" (String "-" (String c r))) with false in I.
  2:{ symmetry. apply Bool.not_true_is_false. intros H. apply startswith_iff in H as (x & H). cbn [append] in H. injection H as -> _. congruence. }
  apply in_flat_map in I as (o' & I & J). destruct (opt_dash o' I) as [->|(d & x & ->)].
  - destruct (String.eqb _ _); [destruct J as [J|[]]; congruence|]. destruct (startswith _ _); [destruct J as [J|[]]; congruence|destruct J].
  - exfalso. change (substring 0 2 (String "-" (String c r))) with (String "-" (String c (substring 0 0 r))) in J.
    destruct (String.eqb_spec (String "-" (String "-" (String d x))) (String "-" (String c (substring 0 0 r)))) as [e|_].
    + injection e as <- _. congruence.
    + destruct (startswith _ _) eqn:S; [|destruct J]. apply startswith_iff in S as (y & S). cbn [append] in S.
      injection S as <- _. congruence.
Qed.

Lemma classify_plain : forall w, ~ prefix_of "-" w -> classify opts w = Some WArg.
Proof.
  intros [|c r] H; [reflexivity|]. unfold classify. destruct (Ascii.eqb c "-") eqn:E; [|reflexivity].
  exfalso. apply H. apply Ascii.eqb_eq in E as ->. exists r. reflexivity.
Qed.
Lemma classify_exact : forall w, In w opts -> classify opts w = Some (WOpt w None).
Proof.
  intros w I. assert (M := proj2 (mem_In _ _) I). destruct (opt_dash w I) as [->|(c & r & ->)]; unfold classify;
    rewrite M; reflexivity.
Qed.
Lemma classify_dash : classify opts "-" = Some WArg.
Proof.
  unfold classify. replace (mem "-" opts) with false; [reflexivity|]. symmetry. apply Bool.not_true_is_false. intros H.
  apply mem_In in H. destruct (opt_dash _ H) as [E|(c & r & E)]; discriminate.
Qed.
Lemma classify_short : forall c r, c <> "-"%char -> ~ In (String "-" (String c r)) opts ->
  (c = "h"%char /\ (classify opts (String "-" (String c r)) = None
                    \/ exists ex, classify opts (String "-" (String c r)) = Some (WOpt "-h" ex)))
  \/ (c <> "h"%char /\ classify opts (String "-" (String c r)) =
        Some (if negative_number (String "-" (String c r)) || has_space (String "-" (String c r)) then WArg else WUnknown)).
Proof.
  intros c r N I. set (w := String "-" (String c r)) in *.
  assert (M : mem w opts = false) by (apply Bool.not_true_is_false; intros H; apply mem_In in H; auto).
  destruct (Ascii.ascii_dec c "h") as [E|E].
  - left. split; [exact E|]. unfold classify, w. fold w. rewrite M. cbn [String.eqb Ascii.eqb Bool.eqb negb].
    assert (F : match option_tuples opts w with
                | [(o, ex)] => Some (WOpt o ex) | _ :: _ => None
                | [] => if negative_number w || has_space w then Some WArg else Some WUnknown end = None
             \/ exists ex, match option_tuples opts w with
                | [(o, ex)] => Some (WOpt o ex) | _ :: _ => None
                | [] => if negative_number w || has_space w then Some WArg else Some WUnknown end = Some (WOpt "-h" ex)).
    { assert (T := proj2 (short_tuples c r N) E). assert (S := short_help c r). fold w in T, S.
      destruct (option_tuples opts w) as [|[o ex] [|]]; [congruence| |left; reflexivity].
      right. exists ex. rewrite (S o ex N (or_introl eq_refl)). reflexivity. }
    destruct (partition_eq w) as [p [v|]] eqn:P; [|exact F].
    destruct (mem p opts) eqn:MP; [|exact F]. right. exists (Some v). apply mem_In in MP.
    apply partition_some in P as (_ & P). destruct (opt_dash p MP) as [->|(d & x & ->)]; [reflexivity|].
    unfold w in P. cbn [append] in P. injection P as -> _. congruence.
  - right. split; [exact E|]. unfold classify, w. fold w. rewrite M. cbn [String.eqb Ascii.eqb Bool.eqb negb].
    assert (F : option_tuples opts w = []).
    { destruct (option_tuples opts w) eqn:T; [reflexivity|]. exfalso. apply E. apply (short_tuples c r N). fold w. rewrite T. discriminate. }
    rewrite F. destruct (partition_eq w) as [p [v|]] eqn:P; [|destruct (_ || _); reflexivity].
    replace (mem p opts) with false; [destruct (_ || _); reflexivity|]. symmetry. apply Bool.not_true_is_false. intros H.
    apply mem_In in H. apply partition_some in P as (_ & P). unfold w in P.
    destruct (opt_dash p H) as [->|(d & x & ->)]; cbn [append] in P; injection P as -> _; congruence.
Qed.
Lemma classify_long : forall w p ex, prefix_of "--" w -> w <> "--" -> ~ In w opts -> partition_eq w = (p, ex) ->
  classify opts w =
    if match ex with Some _ => mem p opts | None => false end then Some (WOpt p ex)
    else match filter (startswith p) opts with
         | [o] => Some (WOpt o ex)
         | _ :: _ => None
         | [] => Some (if negative_number w || has_space w then WArg else WUnknown)
         end.
Proof.
  intros w p ex (r & ->) N I P. cbn [append] in *. set (w := String "-" (String "-" r)) in *.
  assert (M : mem w opts = false) by (apply Bool.not_true_is_false; intros H; apply mem_In in H; auto).
  unfold classify, w. fold w. rewrite M. cbn [String.eqb Ascii.eqb Bool.eqb negb].
  assert (T : option_tuples opts w = map (fun o => (o, ex)) (filter (startswith p) opts)).
  { unfold option_tuples. replace (startswith "--" w) with true; [rewrite P; reflexivity|]. symmetry. apply startswith_iff. exists r. reflexivity. }
  rewrite P, T. destruct ex as [v|]; [destruct (mem p opts); [reflexivity|]|];
    destruct (filter (startswith p) opts) as [|o [|o' l]]; cbn [map]; try reflexivity; destruct (_ || _); reflexivity.
Qed.

Lemma dash_cases : forall w, ~ prefix_of "-" w \/ w = "-"
  \/ (exists c r, w = String "-" (String c r) /\ c <> "-"%char) \/ w = "--" \/ (prefix_of "--" w /\ w <> "--").
Proof.
  intros [|c [|d r]].
  - left. intros (x & H). discriminate.
  - destruct (Ascii.ascii_dec c "-") as [->|N]; [auto|]. left. intros (x & H). cbn [append] in H. injection H as -> _. congruence.
  - destruct (Ascii.ascii_dec c "-") as [->|N].
    + destruct (Ascii.ascii_dec d "-") as [->|N].
      * destruct r; [auto 6|]. do 4 right. split; [eexists; reflexivity|discriminate].
      * right. right. left. eauto.
    + left. intros (x & H). cbn [append] in H. injection H as -> _. congruence.
Qed.

Lemma partition_unique : forall w p ex q, partition_eq w = (p, ex) -> no_equals q ->
  w = q \/ (exists v, w = q ++ "=" ++ v) -> q = p.
Proof.
  intros w p ex q P N [->|(v & E)].
  - assert (H := proj2 (partition_none q q) (conj eq_refl N)). rewrite P in H. congruence.
  - assert (H := proj2 (partition_some w q v) (conj N E)). rewrite P in H. congruence.
Qed.
Lemma partition_before : forall w p ex, partition_eq w = (p, ex) ->
  no_equals p /\ (w = p \/ exists v, w = p ++ "=" ++ v).
Proof.
  intros w p [v|] P.
  - apply partition_some in P as (N & ->). split; [exact N|]. right. eauto.
  - apply partition_none in P as (-> & N). auto.
Qed.
Lemma long_prefix : forall w p ex, prefix_of "--" w -> partition_eq w = (p, ex) -> prefix_of "--" p.
Proof.
  intros w p ex (r & ->) P. apply partition_before in P as (N & [<-|(v & E)]); [eexists; reflexivity|].
  destruct p as [|a [|b p]]; cbn [append] in E; try discriminate.
  injection E as <- <- _. exists p. reflexivity.
Qed.

Theorem classify_arg : forall w, w <> "--" -> (classify opts w = Some WArg <-> argument opts w).
Proof.
  intros w W. unfold argument. destruct (dash_cases w) as [D|[->|[(c & r & -> & N)|[D|(D & _)]]]]; [| | |congruence|].
  - rewrite classify_plain by exact D. tauto.
  - rewrite classify_dash. tauto.
  - assert (Y : forall X, (~ prefix_of "-" (String "-" (String c r)) \/ String "-" (String c r) = "-" \/ X) <-> X).
    { intros X. split; [|auto]. intros [H|[H|H]]; [|discriminate|exact H]. exfalso. apply H. eexists. reflexivity. }
    rewrite Y. clear Y. destruct (in_dec string_dec (String "-" (String c r)) opts) as [I|I].
    { rewrite classify_exact by exact I. split; [discriminate|]. intros (_ & H & _). exfalso. apply H.
      destruct (opt_dash _ I) as [->|(d & x & E)]; [exists ""; reflexivity|]. injection E as -> _. congruence. }
    destruct (classify_short c r N I) as [(-> & K)|(H & ->)].
    { split.
      - destruct K as [->|(ex & ->)]; discriminate.
      - intros (_ & K' & _). exfalso. apply K'. exists r. reflexivity. }
    rewrite <- negative_iff, <- has_space_iff. destruct (negative_number _ || has_space _) eqn:B.
    + split; [|reflexivity]. intros _. apply orb_true_iff in B. split; [exact B|]. split.
      * intros (x & E). cbn [append] in E. injection E as -> _. congruence.
      * intros p o (x & E). cbn [append] in E. injection E as -> _. congruence.
    + apply orb_false_iff in B as (-> & ->). split; [discriminate|]. intros ([A|A] & _); discriminate.
  - destruct (in_dec string_dec w opts) as [I|I].
    { rewrite classify_exact by exact I. split; [discriminate|]. intros [H|[->|(_ & _ & H)]].
      - exfalso. apply H. destruct D as (x & ->). eexists. reflexivity.
      - destruct D as (x & D). discriminate.
      - destruct (H w w D (opt_no_equals w I) (or_introl eq_refl) I). exists "". clear. induction w; cbn [append]; congruence. }
    destruct (partition_eq w) as [p ex] eqn:P. rewrite (classify_long w p ex D W I P).
    assert (Y : forall X, (~ prefix_of "-" w \/ w = "-" \/ X) <-> X).
    { intros X. destruct D as (x & ->). split; [|auto]. intros [H|[H|H]]; [|discriminate|exact H]. exfalso. apply H. eexists. reflexivity. }
    rewrite Y. clear Y. rewrite <- negative_iff, <- has_space_iff.
    assert (K : (forall q o, prefix_of "--" w -> no_equals q -> (w = q \/ exists v, w = q ++ "=" ++ v) -> In o opts -> ~ prefix_of q o)
                <-> filter (startswith p) opts = []).
    { split.
      - intros H. destruct (filter (startswith p) opts) as [|o l] eqn:F; [reflexivity|]. exfalso.
        assert (J : In o (filter (startswith p) opts)) by (rewrite F; left; reflexivity).
        apply filter_In in J as (J & S). apply startswith_iff in S. destruct (partition_before w p ex P) as (B1 & B2).
        exact (H p o D B1 B2 J S).
      - intros F q o _ Q1 Q2 J S. rewrite (partition_unique w p ex q P Q1 Q2) in S. apply startswith_iff in S.
        assert (Z : In o (filter (startswith p) opts)) by (apply filter_In; auto). rewrite F in Z. destruct Z. }
    rewrite K. clear K. destruct (match ex with Some _ => mem p opts | None => false end) eqn:X.
    { split; [discriminate|]. intros (_ & _ & F). destruct ex as [v|]; [|discriminate]. apply mem_In in X.
      assert (Z : In p (filter (startswith p) opts)).
      { apply filter_In. split; [exact X|]. apply startswith_iff. exists "". clear. induction p; cbn [append]; congruence. }
      rewrite F in Z. destruct Z. }
    destruct (filter (startswith p) opts) as [|o [|o' l]]; [|split; [discriminate|intros (_ & _ & H); discriminate]..].
    destruct (negative_number w || has_space w) eqn:B.
    + split; [|reflexivity]. intros _. apply orb_true_iff in B. split; [exact B|]. split; [|reflexivity].
      intros (x & E). destruct D as (y & D). rewrite E in D. discriminate.
    + apply orb_false_iff in B as (-> & ->). split; [discriminate|]. intros ([A|A] & _); discriminate.
Qed.

Lemma names_self : forall o, In o opts -> names_option opts o o.
Proof. intros o I. split; [exact I|auto]. Qed.
Lemma names_prefix : forall p o, names_option opts p o -> o <> "-h" -> prefix_of "--" p /\ no_equals p.
Proof.
  intros p o (I & [->|(N & (x & ->) & S & U)]) H.
  - destruct (opt_dash o I) as [->|(c & r & ->)]; [congruence|]. split; [exists (String c r); reflexivity|].
    exact (opt_no_equals _ I).
  - split; [eexists; reflexivity|]. exact (no_equals_prefix _ _ S (opt_no_equals _ I)).
Qed.

Theorem classify_opt : forall w o ex, w <> "--" -> o <> "-h" ->
  (classify opts w = Some (WOpt o ex) <->
   (ex = None /\ names_option opts w o) \/ exists p v, ex = Some v /\ w = p ++ "=" ++ v /\ no_equals p /\ names_option opts p o).
Proof.
  intros w o ex W NH.
  assert (long : (ex = None /\ names_option opts w o) \/ (exists p v, ex = Some v /\ w = p ++ "=" ++ v /\ no_equals p /\ names_option opts p o) ->
                 prefix_of "--" w).
  { intros [(_ & H)|(p & v & _ & -> & _ & H)]; apply names_prefix in H as (H & _); auto.
    destruct H as (r & ->). eexists. cbn [append]. reflexivity. }
  destruct (dash_cases w) as [D|[->|[(c & r & -> & N)|[D|(D & _)]]]]; [| | |congruence|].
  - rewrite classify_plain by exact D. split; [discriminate|]. intros H. exfalso. apply D. apply long in H as (x & ->). eexists. reflexivity.
  - rewrite classify_dash. split; [discriminate|]. intros H. apply long in H as (x & H). discriminate.
  - split.
    + intros H. exfalso. destruct (in_dec string_dec (String "-" (String c r)) opts) as [I|I].
      * rewrite classify_exact in H by exact I. injection H as <- _. destruct (opt_dash _ I) as [E|(d & x & E)]; [congruence|].
        injection E as -> _. congruence.
      * destruct (classify_short c r N I) as [(_ & [K|(ex' & K)])|(_ & K)]; rewrite K in H; [discriminate|injection H as <- _; congruence|].
        destruct (_ || _); discriminate.
    + intros H. apply long in H as (x & H). injection H as -> _. congruence.
  - destruct (in_dec string_dec w opts) as [I|I].
    { rewrite classify_exact by exact I. split.
      - intros H. injection H as <- <-. left. split; [reflexivity|exact (names_self w I)].
      - intros [(-> & (_ & [->|(K & _)]))|(p & v & _ & -> & _ & _)]; [reflexivity|tauto|].
        exfalso. assert (Q := opt_no_equals _ I). unfold no_equals in Q. clear -Q.
        induction p as [|a p IH]; cbn [append all_chars] in Q; [discriminate|]. apply andb_prop in Q as (_ & Q). auto. }
    destruct (partition_eq w) as [p ex'] eqn:P. rewrite (classify_long w p ex' D W I P).
    assert (K : (ex = None /\ names_option opts w o) \/ (exists q v, ex = Some v /\ w = q ++ "=" ++ v /\ no_equals q /\ names_option opts q o)
                <-> ex = ex' /\ names_option opts p o).
    { split.
      - intros [(-> & H)|(q & v & -> & E & Q & H)].
        + assert (Z := names_prefix w o H NH). destruct Z as (_ & Z).
          rewrite (proj2 (partition_none w w) (conj eq_refl Z)) in P. injection P as <- <-. auto.
        + rewrite (proj2 (partition_some w q v) (conj Q E)) in P. injection P as <- <-. auto.
      - intros (-> & H). destruct ex' as [v|].
        + right. apply partition_some in P as (Q & ->). eauto 8.
        + left. apply partition_none in P as (-> & _). auto. }
    rewrite K. clear K. destruct (match ex' with Some _ => mem p opts | None => false end) eqn:X.
    { destruct ex' as [v|]; [|discriminate]. apply mem_In in X. split.
      - intros H. injection H as <- <-. split; [reflexivity|exact (names_self p X)].
      - intros (-> & (_ & [->|(H & _)])); [reflexivity|tauto]. }
    assert (NI : ~ In p opts).
    { destruct ex' as [v|]; [intros H; apply mem_In in H; congruence|]. apply partition_none in P as (-> & _). exact I. }
    assert (F := filter_single _ (startswith p) opts o (go_nodup _ G)). rewrite startswith_iff in F.
    assert (L := long_prefix w p ex' D P).
    assert (NO : names_option opts p o <-> filter (startswith p) opts = [o]).
    { rewrite F. unfold names_option. split.
      - intros (A & [->|(_ & _ & B & C)]); [tauto|]. repeat split; auto. intros y Y S. apply C; [exact Y|]. apply startswith_iff. exact S.
      - intros (A & B & C). split; [exact A|]. right. repeat split; auto. intros y Y S. apply C; [exact Y|]. apply startswith_iff. exact S. }
    rewrite NO. clear F NO. destruct (filter (startswith p) opts) as [|o1 [|o2 l]].
    + split; [destruct (_ || _); discriminate|intros (_ & H); discriminate].
    + split; [intros H; injection H as <- <-; auto|intros (<- & H); injection H as <-; reflexivity].
    + split; [discriminate|intros (_ & H); discriminate].
Qed.
End Classify.

(** ** The words behind the command *)
Section Line.
Variable opts : list string.
Hypothesis G : good_opts opts.

Lemma names_long : forall p o, names_option opts p o -> o <> "-h" -> prefix_of "--" p /\ p <> "--" /\ no_equals p.
Proof.
  intros p o N H. destruct (names_prefix opts G p o N H) as (P & E). split; [exact P|]. split; [|exact E].
  intros ->. destruct N as (I & [<-|(_ & _ & _ & U)]); [exact (go_dash _ G I)|].
  destruct (go_two _ G) as (a & b & Ia & Ib & Pa & Pb & Nab). apply Nab. rewrite (U a Ia Pa). symmetry. exact (U b Ib Pb).
Qed.

Lemma argument_dashes : ~ argument opts "--".
Proof.
  intros [H|[H|([H|H] & _)]].
  - apply H. eexists. reflexivity.
  - discriminate.
  - apply negative_iff in H. discriminate.
  - apply has_space_iff in H. discriminate.
Qed.
Lemma argument_neq : forall w, argument opts w -> w <> "--".
Proof. intros w A ->. exact (argument_dashes A). Qed.

Definition opt_step (ws : list string) (o v : string) (r : list string) : Prop :=
  o <> "-h" /\ o <> "--help" /\
  ((exists p, ws = p :: v :: r /\ names_option opts p o /\ argument opts v)
   \/ (exists p, ws = (p ++ "=" ++ v) :: r /\ names_option opts p o /\ no_equals p /\ v <> "--")).

Lemma step_words : forall ws o v r vals, opt_step ws o v r -> option_words opts r vals ->
  option_words opts ws ((o, v) :: vals).
Proof.
  intros ws o v r vals (N1 & N2 & [(p & -> & A & B)|(p & -> & A & B & V)]) H; [apply ow_separate|apply ow_joined]; auto.
Qed.
Lemma words_step : forall ws vals, option_words opts ws vals ->
  (ws = [] /\ vals = []) \/ exists o v r vs, opt_step ws o v r /\ vals = (o, v) :: vs /\ option_words opts r vs.
Proof.
  intros ws vals [|p o v r vs A N1 N2 B H|p o v r vs A N1 N2 B V H]; [auto| |]; right; exists o, v, r, vs;
    (split; [|auto]); (split; [exact N1|]); (split; [exact N2|]); [left|right]; exists p; auto.
Qed.
Lemma step_length : forall ws o v r, opt_step ws o v r -> (length r < length ws)%nat.
Proof. intros ws o v r (_ & _ & [(p & -> & _)|(p & -> & _)]); cbn [length]; lia. Qed.
Lemma joined_neq : forall p v, p ++ "=" ++ v <> "--".
Proof. intros [|a [|b [|c p]]] v H; cbn [append] in H; discriminate. Qed.
Lemma not_help : forall o, is_help o = false <-> o <> "-h" /\ o <> "--help".
Proof.
  intros o. unfold is_help. rewrite orb_false_iff, !String.eqb_neq. reflexivity.
Qed.

Lemma consume_step : forall st vals ws o v r, opt_step ws o v r ->
  consume opts st vals ws = consume opts (close st) (vals ++ [(o, v)])%list r.
Proof.
  intros st vals ws o v r (N1 & N2 & H). assert (NH := proj2 (not_help o) (conj N1 N2)).
  destruct H as [(p & -> & A & B)|(p & -> & A & B)]; cbn [consume].
  - destruct (names_long p o A N1) as (_ & P & _). rewrite (proj2 (String.eqb_neq _ _) P).
    rewrite (proj2 (classify_opt opts G p o None P N1) (or_introl (conj eq_refl A))), NH.
    assert (V := argument_neq v B). rewrite (proj2 (String.eqb_neq _ _) V), (proj2 (classify_arg opts G v V) B). reflexivity.
  - assert (P := joined_neq p v). rewrite (proj2 (String.eqb_neq _ _) P).
    destruct B as (B & V). apply String.eqb_neq in V.
    rewrite (proj2 (classify_opt opts G _ o (Some v) P N1)), NH, V; [reflexivity|]. right. exists p, v. auto.
Qed.

Lemma consume_inv : forall st vals ws x, consume opts st vals ws = Some x ->
  (ws = [] /\ finish (paths_of st) vals = Some x)
  \/ (exists r, ws = "--" :: r /\ (forall l, st <> PDone l) /\ finish (paths_of st ++ r)%list vals = Some x)
  \/ (exists w r, ws = w :: r /\ argument opts w /\ (forall l, st <> PDone l)
        /\ consume opts (POpen (paths_of st ++ [w])%list) vals r = Some x)
  \/ (exists o v r, opt_step ws o v r /\ consume opts (close st) (vals ++ [(o, v)])%list r = Some x).
Proof.
  intros st vals [|w r] x H; cbn [consume] in H; [auto|]. right.
  destruct (String.eqb_spec w "--") as [->|W].
  { left. exists r. split; [reflexivity|]. destruct st; [| |discriminate]; (split; [discriminate|exact H]). }
  right. destruct (classify opts w) as [[|o ex|]|] eqn:C; try discriminate.
  { left. exists w, r. split; [reflexivity|]. apply (classify_arg opts G w W) in C. split; [exact C|].
    destruct st; [| |discriminate]; (split; [discriminate|exact H]). }
  right. destruct (is_help o) eqn:NH; [discriminate|]. apply not_help in NH as (N1 & N2).
  apply (classify_opt opts G w o ex W N1) in C. destruct ex as [v|].
  - destruct C as [(C & _)|(p & v' & E & -> & B & C)]; [discriminate|]. injection E as <-.
    destruct (String.eqb_spec v "--") as [|V]; [discriminate|].
    exists o, v, r. split; [|exact H]. split; [exact N1|]. split; [exact N2|]. right. eauto.
  - destruct C as [(_ & C)|(p & v' & E & _)]; [|discriminate]. destruct r as [|v r]; [discriminate|].
    destruct (String.eqb_spec v "--") as [->|V]; [discriminate|].
    destruct (classify opts v) as [[| |]|] eqn:D; try discriminate. apply (classify_arg opts G v V) in D.
    exists o, v, r. split; [|exact H]. split; [exact N1|]. split; [exact N2|]. left. eauto.
Qed.
Lemma consume_arg : forall st vals w r, argument opts w -> (forall l, st <> PDone l) ->
  consume opts st vals (w :: r) = consume opts (POpen (paths_of st ++ [w])%list) vals r.
Proof.
  intros st vals w r A S. assert (W := argument_neq w A). cbn [consume].
  rewrite (proj2 (String.eqb_neq _ _) W), (proj2 (classify_arg opts G w W) A). destruct st; [reflexivity..|congruence].
Qed.

Lemma finish_some : forall l vals p vs, finish l vals = Some (p, vs) <-> l <> [] /\ p = l /\ vs = vals.
Proof.
  intros [|a l] vals p vs; unfold finish; split.
  - discriminate.
  - intros (H & _). congruence.
  - intros H. injection H as <- <-. repeat split; congruence.
  - intros (_ & -> & ->). reflexivity.
Qed.

Lemma consume_done : forall n ws l vals p vs, (length ws < n)%nat ->
  (consume opts (PDone l) vals ws = Some (p, vs) <->
   p = l /\ l <> [] /\ exists v, option_words opts ws v /\ vs = (vals ++ v)%list).
Proof.
  induction n as [|n IH]; intros ws l vals p vs L; [lia|]. split.
  - intros H. apply consume_inv in H as [(-> & H)|[(r & _ & H & _)|[(w & r & _ & _ & H & _)|(o & v & r & S & H)]]].
    + apply finish_some in H as (A & -> & ->). repeat split; auto. exists []. split; [constructor|]. symmetry. apply app_nil_r.
    + destruct (H l eq_refl).
    + destruct (H l eq_refl).
    + assert (Lr := step_length _ _ _ _ S). apply IH in H as (-> & A & vs' & O & ->); [|lia].
      repeat split; auto. exists ((o, v) :: vs'). split; [exact (step_words _ _ _ _ _ S O)|]. rewrite <- app_assoc. reflexivity.
  - intros (-> & A & v & O & ->). apply words_step in O as [(-> & ->)|(o & v' & r & vs' & S & -> & O)].
    + cbn [consume paths_of]. apply finish_some. rewrite app_nil_r. auto.
    + rewrite (consume_step _ _ _ _ _ _ S). cbn [close]. apply IH; [assert (Lr := step_length _ _ _ _ S); lia|].
      repeat split; auto. exists vs'. split; [exact O|]. rewrite <- app_assoc. reflexivity.
Qed.

Lemma consume_open : forall ws l vals p vs, l <> [] ->
  (consume opts (POpen l) vals ws = Some (p, vs) <->
   (exists a w2 v2, ws = a ++ w2 /\ p = l ++ a /\ vs = vals ++ v2 /\ Forall (argument opts) a /\ option_words opts w2 v2)
   \/ (exists a b, ws = a ++ "--" :: b /\ p = l ++ a ++ b /\ vs = vals /\ Forall (argument opts) a))%list.
Proof.
  induction ws as [|w r IH]; intros l vals p vs NE.
  - cbn [consume paths_of]. rewrite finish_some. split.
    + intros (_ & -> & ->). left. exists [], [], []. rewrite !app_nil_r. repeat split; constructor.
    + intros [(a & w2 & v2 & E & -> & -> & _ & O)|(a & b & E & _)]; [|destruct a; discriminate].
      symmetry in E. apply app_eq_nil in E as (-> & ->). apply words_step in O as [(_ & ->)|(o & v & r & vs' & S & _)].
      * rewrite !app_nil_r. auto.
      * apply step_length in S. cbn [length] in S. lia.
  - split.
    + intros H. apply consume_inv in H as [(E & _)|[(r' & E & _ & H)|[(w' & r' & E & A & _ & H)|(o & v & r' & S & H)]]].
      * discriminate.
      * injection E as -> ->. apply finish_some in H as (_ & -> & ->). right. exists [], r'. repeat split; auto.
      * injection E as <- <-. cbn [paths_of] in H. apply IH in H as [(a & w2 & v2 & -> & -> & -> & F & O)|(a & b & -> & -> & -> & F)].
        -- left. exists (w :: a), w2, v2. rewrite <- app_assoc. repeat split; auto.
        -- right. exists (w :: a), b. rewrite <- !app_assoc. repeat split; auto.
        -- destruct l; discriminate.
      * cbn [close] in H. apply (consume_done _ _ _ _ _ _ (Nat.lt_succ_diag_r _)) in H as (-> & _ & vs' & O & ->).
        left. exists [], (w :: r), ((o, v) :: vs'). rewrite app_nil_r, <- app_assoc. repeat split; auto.
        exact (step_words _ _ _ _ _ S O).
    + intros [(a & w2 & v2 & E & -> & -> & F & O)|(a & b & E & -> & -> & F)].
      * destruct a as [|w' a]; cbn [app] in E.
        -- subst w2. apply words_step in O as [(O & _)|(o & v & r' & vs' & S & -> & O)]; [discriminate|].
           rewrite (consume_step _ _ _ _ _ _ S). cbn [close]. apply (consume_done _ _ _ _ _ _ (Nat.lt_succ_diag_r _)).
           rewrite app_nil_r. repeat split; auto. exists vs'. rewrite <- app_assoc. repeat split; auto.
        -- injection E as <- ->. inversion F as [|? ? F1 F2]; subst. rewrite consume_arg; [|exact F1|discriminate]. cbn [paths_of].
           apply IH; [destruct l; discriminate|]. left. exists a, w2, v2. rewrite <- app_assoc. repeat split; auto.
      * destruct a as [|w' a]; cbn [app] in E.
        -- injection E as -> ->. cbn [consume String.eqb Ascii.eqb Bool.eqb paths_of app]. apply finish_some. repeat split; auto.
           destruct l; [congruence|discriminate].
        -- injection E as <- ->. inversion F as [|? ? F1 F2]; subst. rewrite consume_arg; [|exact F1|discriminate]. cbn [paths_of].
           apply IH; [destruct l; discriminate|]. right. exists a, b. rewrite <- !app_assoc. repeat split; auto.
Qed.

Lemma consume_none : forall n ws vals p vs, (length ws < n)%nat ->
  (consume opts PNone vals ws = Some (p, vs) <-> exists v, line opts ws p v /\ vs = (vals ++ v)%list).
Proof.
  unfold line. induction n as [|n IH]; intros ws vals p vs L; [lia|]. split.
  - intros H. apply consume_inv in H as [(-> & H)|[(r & -> & _ & H)|[(w & r & -> & A & _ & H)|(o & v & r & S & H)]]].
    + apply finish_some in H as (H & _). cbn [paths_of] in H. congruence.
    + cbn [paths_of app] in H. apply finish_some in H as (H & -> & ->). exists []. rewrite app_nil_r. split; [|reflexivity].
      split; [exact H|]. right. exists [], [], r. repeat split; constructor.
    + cbn [paths_of app] in H. apply consume_open in H; [|discriminate]. destruct H as [(a & w2 & v2 & -> & -> & -> & F & O)|(a & b & -> & -> & -> & F)].
      * exists v2. split; [|reflexivity]. split; [discriminate|]. left. exists [], w2, [], v2.
        repeat split; [constructor; assumption|constructor|exact O].
      * exists []. rewrite app_nil_r. split; [|reflexivity]. split; [discriminate|]. right. exists [], (w :: a), b.
        repeat split; [constructor; assumption|constructor].
    + cbn [close] in H. apply IH in H as (vs' & (NE & K) & ->); [|assert (Lr := step_length _ _ _ _ S); lia].
      exists ((o, v) :: vs'). rewrite <- app_assoc. split; [|reflexivity]. split; [exact NE|].
      destruct K as [(w1 & w2 & v1 & v2 & -> & -> & F & O1 & O2)|(w1 & a & b & -> & -> & F & O)].
      * left. destruct S as (N1 & N2 & [(q & -> & A & B)|(q & -> & A & B & V)]).
        -- exists (q :: v :: w1), w2, ((o, v) :: v1), v2. repeat split; auto. apply ow_separate; auto.
        -- exists ((q ++ "=" ++ v) :: w1), w2, ((o, v) :: v1), v2. repeat split; auto. apply ow_joined; auto.
      * right. destruct S as (N1 & N2 & [(q & -> & A & B)|(q & -> & A & B & V)]).
        -- exists (q :: v :: w1), a, b. repeat split; auto. apply ow_separate; auto.
        -- exists ((q ++ "=" ++ v) :: w1), a, b. repeat split; auto. apply ow_joined; auto.
  - assert (cut : forall w1 v1 rest, option_words opts w1 v1 ->
       (w1 = [] /\ v1 = []) \/ exists o v r vs', opt_step (w1 ++ rest) o v (r ++ rest)%list /\ v1 = (o, v) :: vs' /\ option_words opts r vs').
    { intros w1 v1 rest O. destruct O as [|q o v r vs' A N1 N2 B O|q o v r vs' A N1 N2 B V O]; [auto| |]; right; exists o, v, r, vs'.
      - split; [|auto]. split; [exact N1|]. split; [exact N2|]. left. exists q. auto.
      - split; [|auto]. split; [exact N1|]. split; [exact N2|]. right. exists q. auto. }
    intros (v & (NE & [(w1 & w2 & v1 & v2 & -> & -> & F & O1 & O2)|(w1 & a & b & -> & -> & F & O)]) & ->).
    + destruct (cut w1 v1 (p ++ w2)%list O1) as [(-> & ->)|(o & v & r & vs' & S & -> & O)].
      * destruct p as [|w p]; [congruence|]. inversion F as [|? ? F1 F2]; subst. cbn [app].
        rewrite consume_arg; [|exact F1|discriminate]. cbn [paths_of app]. apply consume_open; [discriminate|].
        left. exists p, w2, v2. repeat split; auto.
      * rewrite (consume_step _ _ _ _ _ _ S). cbn [close]. apply IH; [assert (Lr := step_length _ _ _ _ S); lia|].
        exists (vs' ++ v2)%list. rewrite <- app_assoc. split; [|reflexivity]. split; [exact NE|]. left. exists r, w2, vs', v2. repeat split; auto.
    + destruct (cut w1 v (a ++ "--" :: b)%list O) as [(-> & ->)|(o & v' & r & vs' & S & -> & O')].
      * rewrite app_nil_r. destruct a as [|w a].
        -- cbn [app consume String.eqb Ascii.eqb Bool.eqb paths_of]. apply finish_some. auto.
        -- inversion F as [|? ? F1 F2]; subst. cbn [app]. rewrite consume_arg; [|exact F1|discriminate]. cbn [paths_of app].
           apply consume_open; [discriminate|]. right. exists a, b. repeat split; auto.
      * rewrite (consume_step _ _ _ _ _ _ S). cbn [close]. apply IH; [assert (Lr := step_length _ _ _ _ S); lia|].
        exists vs'. rewrite <- app_assoc. split; [|reflexivity]. split; [exact NE|]. right. exists r, a, b. repeat split; auto.
Qed.

Theorem consume_line : forall ws p vs, consume opts PNone [] ws = Some (p, vs) <-> line opts ws p vs.
Proof.
  intros ws p vs. rewrite (consume_none _ ws [] p vs (Nat.lt_succ_diag_r _)). split.
  - intros (v & H & ->). exact H.
  - intros H. exists vs. auto.
Qed.
End Line.

(** ** Values *)
Lemma last_value_some : forall o vals v, last_value o vals = Some v <-> given vals o v.
Proof.
  unfold given. induction vals as [|[o' x] r IH]; intros v; cbn [last_value].
  - split; [discriminate|]. intros ([|] & b & H & _); discriminate.
  - destruct (last_value o r) as [v'|] eqn:L.
    + split.
      * intros H. injection H as <-. destruct (proj1 (IH v') eq_refl) as (a & b & -> & N). exists ((o', x) :: a), b. repeat split; auto.
      * intros (a & b & H & N). destruct a as [|y a]; cbn [app] in H.
        { injection H as -> -> ->. exfalso. destruct (proj1 (IH v') eq_refl) as (a & b' & -> & _). apply (N v'). apply in_or_app. right. left. reflexivity. }
        injection H as _ ->. exact (proj2 (IH v) (ex_intro _ a (ex_intro _ b (conj eq_refl N)))).
    + assert (NG : forall v', ~ In (o, v') r).
      { intros v' I. clear IH. induction r as [|[o2 x2] r IHr]; [exact I|]. cbn [last_value] in L.
        destruct (last_value o r) eqn:L'; [discriminate|]. destruct I as [I|I]; [|exact (IHr eq_refl I)].
        injection I as -> ->. rewrite String.eqb_refl in L. discriminate. }
      destruct (String.eqb_spec o' o) as [->|N]; split.
      * intros H. injection H as <-. exists [], r. repeat split; auto.
      * intros (a & b & H & N). destruct a as [|y a]; cbn [app] in H; [injection H as -> _; reflexivity|].
        injection H as _ ->. exfalso. apply (NG v). apply in_or_app. right. left. reflexivity.
      * discriminate.
      * intros (a & b & H & N'). exfalso. destruct a as [|y a]; cbn [app] in H; [injection H as -> _ _; congruence|].
        injection H as _ ->. apply (NG v). apply in_or_app. right. left. reflexivity.
Qed.
Lemma last_value_none : forall o vals, last_value o vals = None <-> not_given vals o.
Proof.
  unfold not_given. induction vals as [|[o' x] r IH]; cbn [last_value].
  - split; [intros _ v []|reflexivity].
  - destruct (last_value o r) as [v'|] eqn:L.
    + split; [discriminate|]. intros H. apply last_value_some in L as (a & b & -> & _). exfalso. apply (H v').
      right. apply in_or_app. right. left. reflexivity.
    + destruct (String.eqb_spec o' o) as [->|N].
      * split; [discriminate|]. intros H. exfalso. apply (H x). left. reflexivity.
      * split; [|reflexivity]. intros _ v [E|E]; [congruence|]. exact (proj1 IH eq_refl v E).
Qed.
Lemma default_iff : forall vals o d v, default d (last_value o vals) = v <-> given_or vals o d v.
Proof.
  intros vals o d v. unfold default, given_or. destruct (last_value o vals) as [x|] eqn:L.
  - rewrite <- last_value_some, L. split; [intros ->; auto|]. intros [H|(H & _)]; [congruence|].
    apply last_value_none in H. congruence.
  - rewrite <- last_value_some, <- last_value_none, L. split; [intros <-; auto|]. intros [H|(_ & ->)]; [discriminate|reflexivity].
Qed.

(** ** The commands *)
Lemma prefix_ex : forall p s, startswith p s = true -> prefix_of p s.
Proof. intros p s. apply startswith_iff. Qed.
Lemma good_options : forall c, good_opts (options_of c).
Proof.
  intros c. constructor; [constructor|].
  - destruct c; left; reflexivity.
  - intros o I. destruct c; cbn [options_of app In] in I;
      repeat (destruct I as [<-|I]; [first [left; reflexivity|right; split; [apply prefix_ex; reflexivity|reflexivity]]|]); destruct I.
  - destruct c; cbn [options_of app In]; intros I; repeat (destruct I as [I|I]; [discriminate|]); exact I.
  - destruct c; cbn [options_of app]; repeat (constructor; [cbn [In]; intros I; repeat (destruct I as [I|I]; [discriminate|]); exact I|]); constructor.
  - exists "--help", "--output-dir". repeat split; try (apply prefix_ex; reflexivity); [| |discriminate];
      destruct c; cbn [options_of app In]; tauto.
Qed.

Lemma choices_iff : forall vals, choices_ok vals = true <->
  forall v, In ("--endianness", v) vals -> v = "little-endian" \/ v = "big-endian".
Proof.
  intros vals. unfold choices_ok. rewrite forallb_forall. unfold endianness_of. split.
  - intros H v I. specialize (H _ I). cbn [fst snd] in H. rewrite String.eqb_refl in H. cbn [negb orb] in H.
    destruct (String.eqb_spec v "little-endian"); [auto|]. destruct (String.eqb_spec v "big-endian"); [auto|discriminate].
  - intros H [o v] I. cbn [fst snd]. destruct (String.eqb_spec o "--endianness") as [->|N]; [|reflexivity].
    destruct (H v I) as [->| ->]; reflexivity.
Qed.

Lemma named : forall w c, command_named w = Some c <->
  w = match c with CosmosCmd => "generate-cosmos" | CfsCmd => "generate-cfs" | CCmd => "generate-c" | BinaryCmd => "generate-binary" end.
Proof.
  intros w c. split.
  - unfold command_named. destruct (String.eqb_spec w "generate-cosmos"); [intros H; injection H as <-; auto|].
    destruct (String.eqb_spec w "generate-cfs"); [intros H; injection H as <-; auto|].
    destruct (String.eqb_spec w "generate-c"); [intros H; injection H as <-; auto|].
    destruct (String.eqb_spec w "generate-binary"); [intros H; injection H as <-; auto|discriminate].
  - intros ->. destruct c; reflexivity.
Qed.

Theorem parse_args_iff : forall words a dir, parse_args words = Some (a, dir) <-> command_line words a dir.
Proof.
  intros words a dir. unfold parse_args. split.
  - destruct words as [|w ws]; [discriminate|]. destruct (command_named w) as [c|] eqn:W; [|discriminate]. apply named in W.
    destruct (consume (options_of c) PNone [] ws) as [[paths vals]|] eqn:L; [|discriminate].
    apply (consume_line _ (good_options c)) in L.
    destruct (arguments_of c paths vals) as [a'|] eqn:A; [|discriminate]. intros H. injection H as -> D.
    apply default_iff in D. unfold arguments_of in A. destruct c; subst w.
    + destruct (last_value "--asn1-module" vals) as [m|] eqn:E1; [|discriminate].
      destruct (last_value "--asn1-messages" vals) as [msgs|] eqn:E2; [|discriminate].
      destruct (last_value "--output-file-name" vals) as [out|] eqn:E3; [|discriminate]. injection A as <-.
      apply last_value_some in E1, E2, E3. exact (cl_cosmos ws paths vals m msgs out dir L E1 E2 E3 D).
    + destruct (last_value "--asn1-modules" vals) as [ms|] eqn:E; [|discriminate]. injection A as <-.
      apply last_value_some in E. exact (cl_cfs ws paths vals ms dir L E D).
    + destruct (last_value "--asn1-modules" vals) as [ms|] eqn:E; [|discriminate]. injection A as <-.
      apply last_value_some in E. exact (cl_c ws paths vals ms dir L E D).
    + destruct (last_value "--asn1-modules" vals) as [ms|] eqn:E; [|discriminate].
      destruct (choices_ok vals) eqn:C; [|discriminate]. injection A as <-. assert (C2 := proj1 (choices_iff vals) C); clear C; rename C2 into C.
      apply last_value_some in E. apply (cl_binary ws paths vals ms dir _ L E D C).
      destruct (last_value "--endianness" vals) as [v|] eqn:V.
      * apply last_value_some in V. assert (I : In ("--endianness", v) vals).
        { destruct V as (x & y & -> & _). apply in_or_app. right. left. reflexivity. }
        destruct (C v I) as [->| ->]; cbn; auto.
      * apply last_value_none in V. auto.
  - fold (parse_args words). assert (fin : forall c ws paths vals a dir, line (options_of c) ws paths vals -> arguments_of c paths vals = Some a ->
       given_or vals "--output-dir" (default_dir c) dir -> parse_args (match c with CosmosCmd => "generate-cosmos" | CfsCmd => "generate-cfs" | CCmd => "generate-c" | BinaryCmd => "generate-binary" end :: ws) = Some (a, dir)).
    { clear. intros c ws paths vals a' dir L A D. unfold parse_args. rewrite (proj2 (named _ c) eq_refl).
      rewrite (proj2 (consume_line _ (good_options c) ws paths vals) L), A. apply default_iff in D. rewrite D. reflexivity. }
    intros [ws paths vals m msgs out d L E1 E2 E3 D|ws paths vals ms d L E D|ws paths vals ms d L E D|ws paths vals ms d e L E D C V].
    + apply last_value_some in E1, E2, E3. apply (fin CosmosCmd ws paths vals _ _ L); [|exact D]. cbn [arguments_of].
      rewrite E1, E2, E3. reflexivity.
    + apply last_value_some in E. apply (fin CfsCmd ws paths vals _ _ L); [|exact D]. cbn [arguments_of]. rewrite E. reflexivity.
    + apply last_value_some in E. apply (fin CCmd ws paths vals _ _ L); [|exact D]. cbn [arguments_of]. rewrite E. reflexivity.
    + apply last_value_some in E. apply (fin BinaryCmd ws paths vals _ _ L); [|exact D]. cbn [arguments_of]. rewrite E.
      rewrite (proj2 (choices_iff vals) C). do 2 f_equal.
      destruct V as [(-> & V)|[(-> & V)|(-> & V)]]; [apply last_value_some in V; rewrite V; reflexivity..|].
      apply last_value_none in V. rewrite V. reflexivity.
Qed.
