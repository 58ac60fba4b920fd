(** * Proofs about floats as decimal texts *)
From Coq Require Import ZifyBool ZifyN QArith Qabs Lqa.
From Verif Require Import Base PyNum PyStr PyFloat Ast Spec_Num Spec_Ieee Spec_Grammar Spec_Syntax Spec_Floats Str_proofs
  Token_proofs Float_proofs Nearest_proofs Repr_proofs Fraction_proofs Grammatical_proofs.
Open Scope string_scope.

Lemma nearest_wd : forall q q' s m e, (q == q')%Q -> nearest double_of q s m e -> nearest double_of q' s m e.
Proof. intros q q' s m e E H b' s' m' e' D. rewrite <- !E. exact (H b' s' m' e' D). Qed.
Lemma rounded_wd : forall d neg q q', (q == q')%Q -> rounded_to d neg q -> rounded_to d neg q'.
Proof.
  intros [s m e|s] neg q q' E H; unfold rounded_to in *.
  - destruct H as (A & B & C). split; [exact A|]. split; [apply (nearest_wd q); assumption|]. rewrite <- E. exact C.
  - rewrite <- E. exact H.
Qed.

Lemma decimal_double_rounded : forall neg n x, (0 <= n)%Z ->
  rounded_to (decimal_double neg n x) neg (inject_Z (if neg then (- n)%Z else n) * inject_Z 10 ^ x)%Q.
Proof.
  intros neg n x N. rewrite decimal_double_up. assert (P := pow10_pos (- x)). assert (P' := pow10_pos x).
  assert (NN : (0 <= n * 10 ^ up x)%Z) by (apply Z.mul_nonneg_nonneg; lia).
  assert (H := nearest_double_nearest neg _ _ NN P). assert (D := decimal_frac n x).
  set (y := frac (n * 10 ^ up x) (10 ^ up (- x))) in *.
  assert (Y : (0 <= y)%Q).
  { unfold y, frac. apply Qle_shift_div_l; [apply inject_pos, P|]. rewrite Qmult_0_l. change 0%Q with (inject_Z 0). rewrite <- Zle_Qle. exact NN. }
  clearbody y.
  assert (E : ((if neg then - y else y) == inject_Z (if neg then (- n)%Z else n) * inject_Z 10 ^ x)%Q).
  { destruct neg; rewrite D; [rewrite inject_Z_opp; ring|reflexivity]. }
  assert (A : (Qabs (if neg then - y else y) == y)%Q).
  { destruct neg; [rewrite Qabs_opp|]; apply Qabs_pos, Y. }
  apply (rounded_wd _ _ _ _ E). destruct (nearest_double neg (n * 10 ^ up x) (10 ^ up (- x))) as [s m e|s]; unfold rounded_to, double_overflow; rewrite A; exact H.
Qed.

Lemma read_rounded : forall f s r, float_here f s r ->
  exists t neg q, s = t ++ r /\ float_ends r /\ float_text t neg q /\ rounded_to (fval f) neg q.
Proof.
  intros f s r (neg & sg & ds & fs & n & point & expo & x & S & D & P & X & O & E & R & ->).
  exists (sg ++ ds ++ point ++ fs ++ expo), neg,
    (inject_Z (if neg then (- n)%Z else n) * inject_Z 10 ^ (x - Z.of_nat (String.length fs)))%Q.
  split; [rewrite E, <- !string_app_assoc; reflexivity|]. split; [exact R|]. split.
  - exists sg, ds, fs, n, point, expo, x. repeat (split; [assumption|]). split; reflexivity.
  - apply decimal_iff in D as (_ & D & ->). apply decimal_double_rounded. apply (digits_value_nonneg _ 0 D). lia.
Qed.

Lemma text_read : forall t neg q r, float_text t neg q -> float_ends r -> exists f, float_here f (t ++ r) r.
Proof.
  intros t neg q r (sg & ds & fs & n & point & expo & x & S & D & P & X & O & -> & _) R.
  exists (py_float neg n (x - Z.of_nat (String.length fs))), neg, sg, ds, fs, n, point, expo, x.
  repeat (split; [assumption|]). split; [rewrite <- !string_app_assoc; reflexivity|]. split; [exact R|reflexivity].
Qed.

Lemma printed_ok : forall f r, float_ok f = true -> finite (fval f) -> float_ends r -> float_here f (frepr f ++ r) r.
Proof.
  intros f r H F R. assert (E := float_ok_repr f H). assert (V := float_ok_valid f H).
  assert (X := float_repr_reads (fval f) r V F R). destruct f as [d t]. cbn [fval frepr] in *. subst t. exact X.
Qed.
Lemma printed_reads : forall f s r r', float_here f s r -> finite (fval f) -> float_ends r' -> float_here f (frepr f ++ r') r'.
Proof. intros f s r r' H F R. apply printed_ok; [eapply float_here_ok, H|exact F|exact R]. Qed.
Lemma printed_rounded : forall f, float_ok f = true -> finite (fval f) ->
  exists neg q, float_text (frepr f) neg q /\ rounded_to (fval f) neg q.
Proof.
  intros f H F. destruct (read_rounded f (frepr f ++ "") "" (printed_ok f "" H F I)) as (t & neg & q & E & _ & T & R).
  rewrite !string_app_nil in E. subst t. exists neg, q. split; assumption.
Qed.

Lemma no_float_letter : forall f c s r, Ascii.eqb c "-" || Ascii.eqb c "+" || Ascii.eqb c "." || is_digit c = false ->
  float_here f (String c s) r -> False.
Proof.
  intros f c s r C (neg & sg & ds & fs & n & point & expo & x & S & D & P & X & O & E & R & _).
  assert (G : forall a b, String c s = String a b -> c = a) by (intros a b H; injection H; auto).
  assert (S' : sg = "" \/ exists a, sg = String a "" /\ (a = "-" \/ a = "+")%char).
  { destruct neg; simpl in S; [right; exists "-"%char; auto|]. destruct S as [-> | ->]; [left; reflexivity|right; exists "+"%char; auto]. }
  destruct S' as [-> |(a & -> & A)].
  - destruct D as (D1 & D2 & _). destruct ds as [|d ds].
    + destruct P as [[-> ->]| ->]; [destruct (D1 eq_refl)|]. simpl in E. apply G in E as ->. discriminate C.
    + simpl in E. apply G in E as ->. simpl in D2. apply andb_true_iff in D2 as [D2 _]. rewrite D2, !orb_true_r in C. discriminate C.
  - simpl in E. apply G in E as ->. destruct A as [-> | ->]; discriminate C.
Qed.
Lemma infinite_unreadable : exists f s, float_here f s "" /\ ~ finite (fval f) /\ forall g r, ~ float_here g (frepr f) r.
Proof.
  assert (V : mkfloat (DInf false) "inf" = py_float false 1 (400 - Z.of_nat (String.length ""))) by (vm_compute; reflexivity).
  exists (mkfloat (DInf false) "inf"), "1e400". split; [|split].
  - exists false, "", "1", "", 1%Z, "", "e400", 400%Z. split; [left; reflexivity|].
    split; [apply decimal_iff; split; [discriminate|split; reflexivity]|]. split; [left; auto|]. split.
    + right. exists "e", false, "", "400", 400%Z. split; [auto|]. split; [left; reflexivity|].
      split; [apply decimal_iff; split; [discriminate|split; reflexivity]|]. split; reflexivity.
    + split; [right; discriminate|]. split; [reflexivity|]. split; [exact I|exact V].
  - intros F. exact F.
  - intros g r H. apply no_float_letter in H; [exact H|reflexivity].
Qed.
