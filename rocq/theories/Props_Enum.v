(** * Property theorems: enumerations (C01, C02) *)
From Verif Require Import Base Ast Size Processor Bundle Spec_Enum Enum_proofs.
Open Scope Z_scope.

(** C01: parsing keeps every definition as it is, except that the items of an
    enumeration are reordered so that item i carries the number i. *)
Theorem C01_enumerations_numbered : forall m m',
  parse_module m = Ok m' ->
  Forall2
    (fun d d' =>
       match d with
       | DEnumerated n c l =>
           exists l', d' = DEnumerated n c l' /\ renumbered l l'
       | _ => d' = d
       end) (mod_defs m) (mod_defs m').
Proof. exact parse_module_enums. Qed.
Print Assumptions C01_enumerations_numbered.

(** This determines the items, their comments and numbers; nothing is lost or
    added. *)
Theorem C01_items_kept : forall l l', renumbered l l' ->
  Permutation (map label l) (map label l') /\ map number l' = upto (length l)
  /\ forall l'', renumbered l l'' -> l'' = l'.
Proof.
  exact (fun l l' H => conj (renumbered_labels l l' H) (conj (proj1 H) (fun l'' H' => renumbered_unique l l'' l' H' H))).
Qed.
Print Assumptions C01_items_kept.

(** C01, rejection: a module with an enumeration whose numbers (omitted ones
    count as 0) neither add up to 0 nor are 0..n-1 in some order is rejected; *)
Theorem C01_other_numbers_rejected : forall m n c l,
  In (DEnumerated n c l) (mod_defs m) ->
  fold_right Z.add 0 (map number l) <> 0 ->
  ~ Permutation (map number l) (upto (length l)) ->
  forall m', parse_module m <> Ok m'.
Proof. exact parse_module_bad_enum. Qed.
Print Assumptions C01_other_numbers_rejected.

(** and the error raised for the enumeration is an IndexError exactly then,
    every other enumeration being accepted. *)
Theorem C01_index_error_iff : forall l,
  (check_enumerated l = Err IndexErr <->
     fold_right Z.add 0 (map number l) <> 0
     /\ ~ Permutation (map number l) (upto (length l)))
  /\ ((exists l', check_enumerated l = Ok l') \/ check_enumerated l = Err IndexErr).
Proof. exact (fun l => conj (check_enumerated_iff l) (check_enumerated_total l)). Qed.
Print Assumptions C01_index_error_iff.

Definition numbered (k : string) (z : Z) : enum_item := mkenum k (Some z) None.
Definition unnumbered (k : string) : enum_item := mkenum k None None.

Example C01_accepted :
  check_enumerated [numbered "a" 2; unnumbered "b"; numbered "c" 1]
  = Ok [unnumbered "b"; numbered "c" 1; numbered "a" 2].
Proof. vm_compute. reflexivity. Qed.

Example C01_accepted_module :
  exists m', parse_module
    (mkmodule "M" None [] None
       [DEnumerated "E" None [numbered "a" 2; numbered "b" 0; numbered "c" 1]]) = Ok m'.
Proof. eexists. vm_compute. reflexivity. Qed.

Example C01_rejected :
  check_enumerated [numbered "a" 1; numbered "b" 3] = Err IndexErr.
Proof. vm_compute. reflexivity. Qed.

(** C02 is false: numbers that add up to 0 are replaced without notice.
    Full statement: [check_enumerated l = Ok l' -> fully_numbered l ->
    Permutation l l']. *)
Theorem C02_explicit_numbers_survive_refuted :
  exists m m' n c l l',
    parse_module m = Ok m'
    /\ mod_defs m = [DEnumerated n c l] /\ mod_defs m' = [DEnumerated n c l']
    /\ fully_numbered l
    /\ exists e e', In e l /\ In e' l' /\ e_key e = e_key e' /\ number e <> number e'
         /\ NoDup (map e_key l).
Proof.
  exists (mkmodule "M" None [] None
            [DEnumerated "E" None [numbered "a" 1; numbered "b" (-1); numbered "c" 0]]).
  eexists. exists "E"%string, None.
  exists [numbered "a" 1; numbered "b" (-1); numbered "c" 0].
  eexists. split; [vm_compute; reflexivity|]. split; [reflexivity|].
  split; [reflexivity|]. split; [repeat constructor; eexists; reflexivity|].
  exists (numbered "a" 1), (numbered "a" 0).
  repeat split; simpl; auto; try discriminate.
  repeat constructor; simpl; intuition discriminate.
Qed.
Print Assumptions C02_explicit_numbers_survive_refuted.

(** What holds instead: explicit numbers survive exactly if they are 0..n-1 in
    some order; otherwise an accepted enumeration has numbers with sum 0 and
    they are replaced by the positions in the text.  Missing for C02: the
    second case should be rejected. *)
Theorem C02_explicit_numbers_survive_partial : forall l l',
  check_enumerated l = Ok l' -> fully_numbered l ->
  (Permutation (map number l) (upto (length l)) /\ Permutation l l')
  \/ (~ Permutation (map number l) (upto (length l))
      /\ fold_right Z.add 0 (map number l) = 0
      /\ map label l' = map label l /\ map number l' = upto (length l)
      /\ ~ Permutation l l').
Proof. exact enum_explicit. Qed.
Print Assumptions C02_explicit_numbers_survive_partial.

Example C02_cases :
  (exists l', check_enumerated [numbered "a" 1; numbered "b" 0] = Ok l')
  /\ (exists l', check_enumerated [numbered "a" 1; numbered "b" (-1)] = Ok l')
  /\ fully_numbered [numbered "a" 1; numbered "b" 0].
Proof.
  repeat split; try (eexists; vm_compute; reflexivity).
  repeat constructor; eexists; reflexivity.
Qed.
