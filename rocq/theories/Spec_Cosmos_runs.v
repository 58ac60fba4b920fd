(** * Specification: what the cosmos command can process *)
From Verif Require Import Base Ast Spec_Check Spec_Bundle Spec_Cosmos.

(** The modules are valid, and every message is a SEQUENCE of the module named
    whose members lead to leaves.  No cycle of imports gets in the way of
    looking up a type, and an application process identifier is fixed to a
    number. *)
Record cosmos_processable (mn : string) (msgs : list string) (input : list module) : Prop :=
  { cp_modules : Forall module_valid input;
    cp_imports : imports_resolve input;
    cp_clauses : clauses_valid (definitions input);
    cp_names : NoDup (map def_name (definitions input));
    cp_messages : (msgs = [] /\ input <> []) \/ exists i m, nth_error input i = Some m /\ mod_name m = mn
      /\ (looks_up m msgs -> acyclic_from input i)
      /\ forall n, In n msgs -> exists cm l ls, In (DSequence n cm l) (mod_defs m)
           /\ packet_leaves input i [] l ls /\ Forall apid_given ls }.

(** No leaf of the messages is given values by two clauses, or none is an
    application process identifier. *)
Definition clear_apids (mn : string) (msgs : list string) (input : list module) : Prop :=
  forall i m, nth_error input i = Some m -> mod_name m = mn ->
  one_clause_each input i m msgs
  \/ forall n cm l ls, In n msgs -> In (DSequence n cm l) (mod_defs m) -> packet_leaves input i [] l ls ->
     Forall (fun lf => apid_ok (lf_member lf)) ls.
