(** * Specification: dependencies between modules and between types *)
From Coq Require Import Relations.
From Verif Require Import Base Ast Spec_Check.

(** Module [a] imports something from module [b]. *)
Definition imports_from (ms : list module) (a b : string) : Prop :=
  exists m it, In m ms /\ mod_name m = a /\ In it (mod_imports m) /\ imp_module it = b.

(** A member of type [a] of module [m] has type [b] (or an array of it), also
    defined in [m]. *)
Definition uses_local (m : module) (a b : string) : Prop :=
  exists d k, In d (mod_defs m) /\ def_name d = a /\ In k (members_of d)
    /\ element (m_type k) = TName b /\ In b (defined_names m).

Definition cyclic (R : string -> string -> Prop) : Prop := exists x, clos_trans string R x x.
Definition acyclic (R : string -> string -> Prop) : Prop := ~ cyclic R.
