(** * Specification: the order of the definitions in generated C files (C98) *)
From Coq Require Import Sorting.Permutation Sorting.Sorted.
From Verif Require Import Base Ast Spec_Check.

Definition imported (m : module) (n : string) : Prop := exists it, In it (mod_imports m) /\ In n (imp_names it).

(** Definition [d] has a member of type [n], or an array of it, and [n] is not
    imported. *)
Definition needs (m : module) (d : definition) (n : string) : Prop :=
  exists k, In k (members_of d) /\ element (m_type k) = TName n /\ ~ imported m n.

(** The definitions are written in rounds.  Each round goes once through the
    definitions of the file that are left and writes those whose types have
    been written before.  If [rounds j] is the round of the definition at
    position [j], then [ready m rounds i d n] says that definition [d] at
    position [i] can be written in round [n]. *)
Definition ready (m : module) (rounds : nat -> nat) (i : nat) (d : definition) (n : nat) : Prop :=
  forall j d', nth_error (mod_defs m) j = Some d' -> needs m d (def_name d') ->
  rounds j < n \/ (rounds j = n /\ j < i).

Definition earliest_rounds (m : module) (rounds : nat -> nat) : Prop :=
  forall i d, nth_error (mod_defs m) i = Some d ->
  ready m rounds i d (rounds i) /\ forall n, ready m rounds i d n -> rounds i <= n.

Definition in_rounds (m : module) (order : list definition) : Prop :=
  exists rounds places, earliest_rounds m rounds
    /\ Permutation places (seq 0 (length (mod_defs m)))
    /\ StronglySorted (fun i j => rounds i < rounds j \/ (rounds i = rounds j /\ i < j)) places
    /\ map Some order = map (nth_error (mod_defs m)) places.
