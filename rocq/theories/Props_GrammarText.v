(** * Property C91: the text of grammar.py decides what is read *)
From Coq Require Import Lia.
From Verif Require Import Base PyNum PyStr Ast Grammar Regex Peg GrammarText Spec_Regex Spec_Utf8 Spec_Peg Peg_proofs PegTotal_proofs
  Props_Peg.
Open Scope string_scope.

(** C91: the rules that textX reads in the text of grammar.py, on every text
    of code points, whatever [\d] and [\w] are: the parser ends, with one
    result. *)
Theorem C91_one_result : forall digit word t, exists! o, written_result digit word t o.
Proof. exact written_function. Qed.
Print Assumptions C91_one_result.

(** It is the result of the rules as Peg.v has them. *)
Theorem C91_written : forall digit word t o, written_result digit word t o <-> parse_result digit word t o.
Proof. exact written_iff. Qed.
Print Assumptions C91_written.

(** The modules that the model reads are those of the text of grammar.py, and
    where the model reads none the text of grammar.py gives a syntax error. *)
Theorem C91_module : forall digit word t, standard digit word -> unicode t -> (forall c, In c t -> digit c = true -> (c < 128)%N) ->
  match read_module (utf8 t) with
  | Some m => exists v, written_result digit word t (Some v) /\ module_value m v
  | None => written_result digit word t None
  end.
Proof. exact written_module. Qed.
Print Assumptions C91_module.

(** The text is read into 22 rules, two of them textX's own.  The text of
    C83_sample is a module; an Arabic digit in a name is read, a Greek letter
    is not. *)
Example C91_sample : exists l, written_rules = Some l /\ List.length l = 22%nat
  /\ (exists v, written_result digit2 word2 (codes rich_text) (Some v))
  /\ (exists v, written_result digit2 word2 foreign_text (Some v))
  /\ written_result digit2 word2 (codes "Module-" ++ [945%N]) None
  /\ unicode (codes rich_text) /\ (forall c, In c (codes rich_text) -> digit2 c = true -> (c < 128)%N).
Proof.
  eexists. split; [vm_compute; reflexivity|]. split; [reflexivity|].
  split; [eexists; apply written_iff, (run_result_sound 200); vm_compute; reflexivity|].
  split; [destruct foreign_accepted as [v V]; exists v; apply written_iff; exact V|].
  split; [apply written_iff, (run_result_sound 200); vm_compute; reflexivity|].
  assert (A : forallb (fun c => c <? 128)%N (codes rich_text) = true) by (vm_compute; reflexivity).
  rewrite forallb_forall in A. split.
  - intros c C. apply A in C. apply N.ltb_lt in C. unfold scalar. lia.
  - intros c C _. now apply N.ltb_lt, A.
Qed.
