(** * Property C74: floats are read exactly and printed so that they can be
    read back *)
From Coq Require Import QArith Qabs.
From Verif Require Import Base PyNum PyStr PyFloat Ast Grammar Spec_Num Spec_Ieee Spec_Grammar Spec_Syntax Spec_Floats
  Token_proofs Floats_proofs Shortest_proofs.
Open Scope string_scope.

(** C74: a float read from a text is the double nearest to the number the text
    stands for. *)
Theorem C74_read_nearest : forall f s r, float_here f s r ->
  exists t neg q, s = t ++ r /\ float_ends r /\ float_text t neg q /\ rounded_to (fval f) neg q.
Proof. exact read_rounded. Qed.
Print Assumptions C74_read_nearest.

(** C74: every such text is read. *)
Theorem C74_text_read : forall t neg q r, float_text t neg q -> float_ends r -> exists f, float_here f (t ++ r) r.
Proof. exact text_read. Qed.
Print Assumptions C74_text_read.

(** C74, full statement: the text written to the output files for a float can
    be read and gives the same float.  False: a number too large for a double
    is printed as "inf". *)
Theorem C74_printed_reads_refuted : exists f s, float_here f s ""
  /\ ~ finite (fval f) /\ forall g r, ~ float_here g (frepr f) r.
Proof. exact infinite_unreadable. Qed.
Print Assumptions C74_printed_reads_refuted.

(** It holds for all other floats. *)
Theorem C74_printed_reads_partial : forall f s r r', float_here f s r -> finite (fval f) -> float_ends r' ->
  float_here f (frepr f ++ r') r'.
Proof. exact printed_reads. Qed.
Print Assumptions C74_printed_reads_partial.

(** In particular the text written for a float of a grammatical module stands
    for a number to which it is the nearest double. *)
Theorem C74_printed_nearest_partial : forall f, float_ok f = true -> finite (fval f) ->
  exists neg q, float_text (frepr f) neg q /\ rounded_to (fval f) neg q.
Proof. exact printed_rounded. Qed.
Print Assumptions C74_printed_nearest_partial.

(** C74: at most one double is the nearest one to a number. *)
Theorem C74_unique : forall d d' neg q, valid_double d = true -> valid_double d' = true ->
  rounded_to d neg q -> rounded_to d' neg q -> d = d'.
Proof. exact rounded_unique. Qed.
Print Assumptions C74_unique.

(** C74: the text written for a float other than zero has as few digits as
    any number that is read as this float, and among those with as few digits
    it is nearest to the float. *)
Theorem C74_shortest : forall f neg m e, float_ok f = true -> fval f = DFin neg m e -> (0 < m)%N ->
  exists q k, float_text (frepr f) neg q /\ has_digits k neg q /\ rounded_to (fval f) neg q
    /\ forall j q', has_digits j neg q' -> rounded_to (fval f) neg q' ->
         (k <= j)%Z /\ (j = k -> (Qabs (q - qval neg m e) <= Qabs (q' - qval neg m e))%Q).
Proof. exact printed_shortest. Qed.
Print Assumptions C74_shortest.

(** 2^-44 needs 16 digits, although doubles nearby need 17; the smallest
    double needs one. *)
Example C74_shortest_sample :
  float_ok (mkfloat (DFin false 4503599627370496 (-96)) "5.684341886080802e-14") = true
  /\ float_ok (mkfloat (DFin false 7205759403792795 (-56)) "0.10000000000000002") = true
  /\ float_ok (mkfloat (DFin true 1 (-1074)) "-5e-324") = true.
Proof. split; [|split]; vm_compute; reflexivity. Qed.

(** 0.1000 is read as the double 7205759403792794 * 2^-56 and printed as 0.1;
    1e23 as 9007199254740991.75 * 2^23 rounded to an even mantissa. *)
Example C74_sample :
  float_here (mkfloat (DFin false 7205759403792794 (-56)) "0.1") "0.1000)" ")"
  /\ float_here (mkfloat (DFin false 5960464477539062 24) "1e+23") "1.E23" ""
  /\ float_here (mkfloat (DFin true 1 (-1074)) "-5e-324") "-4.9e-324" ""
  /\ float_text "0.1000" false (1 # 10).
Proof.
  assert (D : forall ds, ds <> "" -> all_chars is_digit ds = true -> decimal ds (digits_value 0 ds)).
  { intros ds A B. apply decimal_iff. auto. }
  split; [|split; [|split]].
  - exists false, "", "0", "1000", (digits_value 0 "01000"), ".", "", 0%Z. split; [left; reflexivity|].
    split; [apply D; [discriminate|reflexivity]|]. split; [auto|]. split; [auto|]. split; [left; discriminate|].
    split; [reflexivity|]. split; [reflexivity|]. vm_compute. reflexivity.
  - exists false, "", "1", "", (digits_value 0 "1"), ".", "E23", 23%Z. split; [left; reflexivity|].
    split; [apply D; [discriminate|reflexivity]|]. split; [auto|]. split.
    { right. exists "E", false, "", "23", 23%Z. split; [auto|]. split; [left; reflexivity|].
      split; [apply (D "23"); [discriminate|reflexivity]|]. split; reflexivity. }
    split; [left; discriminate|]. split; [reflexivity|]. split; [reflexivity|]. vm_compute. reflexivity.
  - exists true, "-", "4", "9", (digits_value 0 "49"), ".", "e-324", (-324)%Z. split; [reflexivity|].
    split; [apply D; [discriminate|reflexivity]|]. split; [auto|]. split.
    { right. exists "e", true, "-", "324", 324%Z. split; [auto|]. split; [reflexivity|].
      split; [apply (D "324"); [discriminate|reflexivity]|]. split; reflexivity. }
    split; [left; discriminate|]. split; [reflexivity|]. split; [reflexivity|]. vm_compute. reflexivity.
  - exists "", "0", "1000", (digits_value 0 "01000"), ".", "", 0%Z. split; [left; reflexivity|].
    split; [apply D; [discriminate|reflexivity]|]. split; [auto|]. split; [auto|]. split; [left; discriminate|].
    split; [reflexivity|]. vm_compute. reflexivity.
Qed.
