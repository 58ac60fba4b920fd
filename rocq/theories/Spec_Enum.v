(** * Specification vocabulary: enumerations and widths *)
From Verif Require Import Base Ast.
Open Scope Z_scope.

(** What the author wrote for an item, apart from its number. *)
Definition label (e : enum_item) : string * option comment := (e_key e, e_comment e).

(** The number of an item; an omitted number is 0 (textX's default). *)
Definition number (e : enum_item) : Z :=
  match e_written e with Some z => z | None => 0 end.

(** [0; 1; ...; n-1] *)
Definition upto (n : nat) : list Z := map Z.of_nat (seq 0 n).

(** Every item has an explicit number. *)
Definition fully_numbered (l : list enum_item) : Prop :=
  Forall (fun e => exists z, e_written e = Some z) l.

(** What an accepted enumeration becomes: if the numbers add up to 0, the items
    in the order of the text, numbered from 0; otherwise the same items in the
    order of their numbers, which are 0..n-1. *)
Definition renumbered (l l' : list enum_item) : Prop :=
  map number l' = upto (length l)
  /\ (fold_right Z.add 0 (map number l) = 0 -> map label l' = map label l /\ fully_numbered l')
  /\ (fold_right Z.add 0 (map number l) <> 0 -> Permutation l l').

(** [w] is the least number of bits that hold all of 0..v. *)
Definition least_width (w v : Z) : Prop :=
  0 <= w /\ v < 2 ^ w /\ forall w', 0 <= w' -> v < 2 ^ w' -> w <= w'.
