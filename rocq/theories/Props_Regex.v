(** * Property C82: the tokens of the model are those of the regular
    expressions of the grammar *)
From Verif Require Import Base PyNum PyStr Ast Grammar Regex Spec_Regex Regex_proofs.
Open Scope string_scope.

(** C82: what is left of an ASCII text after a token, and if there is a token,
    is what Python's [re] finds, whatever [\d] and [\w] are on other
    characters. *)
Theorem C82_names : forall digit word p s, standard digit word -> ascii_text s = true ->
  match_here (name_lower_regex digit) p (codes s) = option_map (fun x => codes (snd x)) (NameLower false s)
  /\ match_here (name_capital_regex digit) p (codes s) = option_map (fun x => codes (snd x)) (NameCapital false s).
Proof.
  exact (fun digit word p s S A => conj (name_regex_ok digit word S az is_lower p s az_ok A) (name_regex_ok digit word S AZ is_upper p s AZ_ok A)).
Qed.
Print Assumptions C82_names.

Theorem C82_numbers : forall digit word p s, standard digit word -> ascii_text s = true ->
  match_here (int_regex word) p (codes s) = option_map (fun x => codes (snd x)) (INT false s)
  /\ match_here (strictfloat_regex digit word) p (codes s) = option_map (fun x => codes (snd x)) (STRICTFLOAT false s).
Proof. exact (fun digit word p s S A => conj (int_regex_ok digit word S p s A) (float_regex_ok digit word S p s A)). Qed.
Print Assumptions C82_numbers.

Theorem C82_comments : forall digit word p s, standard digit word -> ascii_text s = true ->
  match_here (unit_regex digit) p (codes s) = option_map (fun x => codes (snd x)) (unit_text false s)
  /\ match_here comment_regex p (codes s) = option_map (fun x => codes (snd x)) (comment_text false s).
Proof. exact (fun digit word p s S A => conj (unit_regex_ok digit word S p s A) (comment_regex_ok p s A)). Qed.
Print Assumptions C82_comments.

(** C82, full statement for names in any text: a name consists of ASCII
    letters, ASCII digits and hyphens.  False: [\d] is any decimal digit of
    Unicode, such as U+0663. *)
Theorem C82_ascii_names_refuted : forall digit, digit 1635%N = true ->
  exists t, match_here (name_lower_regex digit) None t = Some [] /\ ~ ascii_name t.
Proof. exact foreign_names. Qed.
Print Assumptions C82_ascii_names_refuted.

(** It holds for texts without such digits. *)
Theorem C82_ascii_names_partial : forall digit f p s rest, f = az \/ f = AZ ->
  (forall c, In c s -> digit c = true -> (48 <= c <= 57)%N) -> match_here (name_regex digit f) p s = Some rest ->
  exists t, s = (t ++ rest)%list /\ forall c, In c t -> (48 <= c <= 57 \/ 65 <= c <= 90 \/ 97 <= c <= 122 \/ c = 45)%N.
Proof. exact names_ascii. Qed.
Print Assumptions C82_ascii_names_partial.

Definition py_digit (c : N) : bool := d09 c || range 1632 1641 c.
Definition py_word (c : N) : bool := az c || AZ c || d09 c || (c =? 95)%N || range 1632 1641 c.
Example C82_sample : standard py_digit py_word
  /\ match_here (name_lower_regex py_digit) None (codes "message-2-type) x") = Some (codes ") x")
  /\ match_here (name_lower_regex py_digit) None (codes "a--b") = Some (codes "--b")
  /\ match_here (int_regex py_word) (Some 40%N) (codes "-017)") = Some (codes ")")
  /\ match_here (int_regex py_word) None (codes "17a") = None
  /\ match_here (strictfloat_regex py_digit py_word) None (codes "-1.e+5 .. 2") = Some (codes " .. 2")
  /\ match_here (strictfloat_regex py_digit py_word) None (codes "1.5e)") = None
  /\ match_here comment_regex None (codes "a (b) -- c!") = Some []
  /\ match_here comment_regex None (codes "a {b}") = None
  /\ match_here (strictfloat_regex py_digit py_word) None [1635; 46; 1637]%N = Some [].
Proof.
  split.
  - intros c C. unfold py_digit, py_word. assert (R : range 1632 1641 c = false) by (unfold range; apply andb_false_iff; left; apply N.leb_gt; lia).
    rewrite R, !orb_false_r. split; reflexivity.
  - repeat split; vm_compute; reflexivity.
Qed.
