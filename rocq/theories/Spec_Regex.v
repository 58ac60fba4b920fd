(** * Specification: ASCII texts *)
From Verif Require Import Base.

Definition ascii_char (c : ascii) : bool := (N_of_ascii c <? 128)%N.
Fixpoint ascii_text (s : string) : bool :=
  match s with EmptyString => true | String c r => ascii_char c && ascii_text r end.

(** [digit] and [word] are as documented for Python's [\d] and [\w] on ASCII
    characters; anything on others. *)
Definition standard (digit word : N -> bool) : Prop :=
  forall c, (c < 128)%N ->
    digit c = ((48 <=? c) && (c <=? 57))%N
    /\ word c = (((97 <=? c) && (c <=? 122)) || ((65 <=? c) && (c <=? 90)) || ((48 <=? c) && (c <=? 57)) || (c =? 95))%N.

Definition ascii_name (t : list N) : Prop := forall c, In c t -> (c < 128)%N.
