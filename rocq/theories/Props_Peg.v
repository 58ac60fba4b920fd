(** * Property C83: the parser of the model is the grammar *)
From Verif Require Import Base PyNum PyStr Ast Grammar Regex Peg Spec_Regex Spec_Utf8 Spec_Peg Peg_proofs.
Open Scope string_scope.

(** C83: on an ASCII text the rules of grammar.py have exactly one result,
    whatever [\d] and [\w] are on other characters; it is the object of the
    module that the model reads, and a syntax error if the model reads none. *)
Theorem C83_grammar : forall digit word s, standard digit word -> ascii_text s = true ->
  match read_module s with
  | Some m => exists v, parse_result digit word (codes s) (Some v) /\ module_value m v
  | None => parse_result digit word (codes s) None
  end.
Proof. exact (fun digit word s S A => grammar_agrees digit word S s A). Qed.
Print Assumptions C83_grammar.

Theorem C83_unique : forall digit word t a b, parse_result digit word t a -> parse_result digit word t b -> a = b.
Proof. exact parse_unique. Qed.
Print Assumptions C83_unique.

(** C83, full statement: only ASCII texts are accepted.  False: [\d] admits
    other decimal digits. *)
Theorem C83_ascii_refuted : exists digit word t v, standard digit word /\ parse_result digit word t (Some v) /\ In 1635%N t.
Proof.
  exact foreign_texts.
Qed.
Print Assumptions C83_ascii_refuted.

(** It holds up to these digits, so that the model, which reads bytes, decides
    every text without them, in whatever script, after its encoding. *)
Theorem C83_ascii_partial : forall digit word t v, parse_result digit word t (Some v) ->
  forall c, In c t -> (c < 128)%N \/ digit c = true.
Proof. exact accepted_characters. Qed.
Print Assumptions C83_ascii_partial.

Theorem C83_texts : forall digit word t, standard digit word -> unicode t -> (forall c, In c t -> digit c = true -> (c < 128)%N) ->
  match read_module (utf8 t) with
  | Some m => exists v, parse_result digit word t (Some v) /\ module_value m v
  | None => forall v, ~ parse_result digit word t (Some v)
  end.
Proof. exact texts_agree. Qed.
Print Assumptions C83_texts.

(** A module with imports, every kind of definition and of type, comments with
    units and endianness, and nested clauses. *)
Definition rich_text : string :=
  "Module-top DEFINITIONS AUTOMATIC TAGS ::= BEGIN -- about this" ++ NL ++
  "IMPORTS T, U FROM Module-e -- from e" ++ NL ++ "V FROM Module-f-2; --" ++ NL ++
  "M ::= SEQUENCE { -- ENDIANNESS(LITTLE) [m/s] speed" ++ NL ++
  "  x INTEGER(0..255), -- [V]" ++ NL ++
  "  y SEQUENCE (SIZE (4)) OF SEQUENCE (SIZE (2)) OF REAL(-1.5 .. 2e3)," ++ NL ++
  "  z T (WITH COMPONENTS { a (17), b (WITH COMPONENTS { c (TRUE), d (-1.0) }) -- why" ++ NL ++ " })," ++ NL ++
  "  s IA5String (SIZE (8))" ++ NL ++ "}" ++ NL ++
  "C ::= CHOICE { one M, two U }" ++ NL ++
  "E ::= ENUMERATED { off(0), on }" ++ NL ++
  "S ::= BOOLEAN -- yes or no" ++ NL ++ "END" ++ NL.
Example C83_sample : standard digit2 word2 /\ ascii_text rich_text = true
  /\ (exists m, read_module rich_text = Some m /\ List.length (mod_defs m) = 4%nat /\ List.length (mod_imports m) = 2%nat)
  /\ (exists v, run_result 200 digit2 word2 (codes rich_text) = Some (Some v))
  /\ read_module (utf8 [77; 8364]%N) = None /\ String.length (utf8 [77; 8364]%N) = 4%nat.
Proof.
  split; [exact standard2|]. split; [vm_compute; reflexivity|]. split; [eexists; repeat split; vm_compute; reflexivity|].
  split; [eexists; vm_compute; reflexivity|]. split; vm_compute; reflexivity.
Qed.
