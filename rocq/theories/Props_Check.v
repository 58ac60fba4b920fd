(** * Property theorems: what the parser accepts (C15, C22-C26, C49) *)
From Coq Require Import QArith.
From Verif Require Import Base PyNum Ast Size Processor CCommon Samples
  Spec_Enum Spec_Num Spec_Check Spec_Grammar Check_proofs Reject_proofs.
Open Scope string_scope.

(** C49: a module is accepted exactly if it is valid. *)
Theorem C49_module_accepted_iff : forall m,
  grammatical m = true -> ((exists m', parse_module m = Ok m') <-> module_valid m).
Proof. exact module_accepted_iff. Qed.
Print Assumptions C49_module_accepted_iff.

Example C49_sample :
  Forall (fun m => grammatical m = true /\ exists m', parse_module m = Ok m') sample_modules.
Proof. repeat constructor; try (vm_compute; reflexivity); eexists; vm_compute; reflexivity. Qed.

(** C15: used types are built in, imported or defined. *)
Theorem C15_used_types_defined : forall m m' d k n,
  grammatical m = true -> parse_module m = Ok m' ->
  In d (mod_defs m) -> In k (members_of d) -> element (m_type k) = TName n ->
  In n (concat (map imp_names (mod_imports m))) \/ In n (map def_name (mod_defs m)).
Proof.
  exact (fun m m' d k n Hg H =>
    proj2 (proj2 (proj1 (module_accepted_iff m Hg) (ex_intro _ m' H))) d k n).
Qed.
Print Assumptions C15_used_types_defined.

(** A module with no other defect than an undefined type is rejected with a
    ConsistencyError. *)
Theorem C15_undefined_type_rejected : forall m d k n,
  grammatical m = true -> Forall clean (module_comments m) ->
  Forall definition_valid (mod_defs m) ->
  In d (mod_defs m) -> In k (members_of d) -> element (m_type k) = TName n ->
  ~ In n (concat (map imp_names (mod_imports m))) -> ~ In n (map def_name (mod_defs m)) ->
  parse_module m = Err ConsistencyError.
Proof.
  exact (fun m d k n Hg Hc Hv Hd Hk He H1 H2 =>
    undefined_error m Hg Hc Hv
      (fun H => match H d k n Hd Hk He with or_introl a => H1 a | or_intror a => H2 a end)).
Qed.
Print Assumptions C15_undefined_type_rejected.

Definition undefined_module : module :=
  mkmodule "m" None [] None
    [DSequence "S" None [mkmember "a" (TArray 3 (TName "Nowhere")) None None]].
Example C15_undefined :
  grammatical undefined_module = true /\ Forall clean (module_comments undefined_module)
  /\ Forall definition_valid (mod_defs undefined_module)
  /\ parse_module undefined_module = Err ConsistencyError.
Proof.
  split; [reflexivity|]. split; [constructor|]. split; [|vm_compute; reflexivity].
  repeat constructor. discriminate.
Qed.

(** C22: ranges are not reversed, at any depth of arrays. *)
Theorem C22_ranges_ordered : forall m m' d t s,
  grammatical m = true -> parse_module m = Ok m' ->
  In d (mod_defs m) -> In t (definition_types d) -> In s (subtypes t) -> ~ reversed s.
Proof. exact accepted_not_reversed. Qed.
Print Assumptions C22_ranges_ordered.

(** A module with no other defects than reversed ranges gets a ValueError. *)
Theorem C22_reversed_range_rejected : forall m d t s,
  grammatical m = true -> Forall clean (module_comments m) ->
  Forall only_reversed (mod_defs m) ->
  In d (mod_defs m) -> In t (definition_types d) -> In s (subtypes t) -> reversed s ->
  parse_module m = Err ValueErr.
Proof.
  exact (fun m d t s Hg Hc Ho Hd Ht Hs Hr =>
    value_error m Hg Hc Ho
      (ex_intro _ d (ex_intro _ t (conj Hd (conj Ht (ex_intro _ s (conj Hs Hr))))))).
Qed.
Print Assumptions C22_reversed_range_rejected.

Definition reversed_module : module :=
  mkmodule "m" None [] None
    [DSimple "A" (TInteger (Some (0, 7)%Z)) None;
     DSequence "S" None
       [mkmember "a" (TName "A") None None;
        mkmember "b" (TArray 2 (TArray 3 (TInteger (Some (5, 4)%Z)))) None None]].
Example C22_reversed :
  grammatical reversed_module = true /\ Forall clean (module_comments reversed_module)
  /\ Forall only_reversed (mod_defs reversed_module)
  /\ parse_module reversed_module = Err ValueErr.
Proof.
  split; [reflexivity|]. split; [constructor|]. split; [|vm_compute; reflexivity].
  constructor; [left; simpl; split; [repeat constructor; simpl; lia | split; [discriminate | exact I]]|].
  constructor; [|constructor]. right. constructor.
  - left. simpl. split; [repeat constructor | discriminate].
  - constructor; [|constructor]. right. exists (TInteger (Some (5, 4)%Z)). split; [simpl; auto | simpl; lia].
Qed.

(** C23: NULL does not occur, at any depth of arrays. *)
Theorem C23_null_rejected : forall m d t,
  grammatical m = true ->
  In d (mod_defs m) -> In t (definition_types d) -> In TNull (subtypes t) ->
  forall m', parse_module m <> Ok m'.
Proof.
  exact (fun m d t Hg Hd Ht Hn m' H => accepted_not_null m m' d t Hg H Hd Ht Hn).
Qed.
Print Assumptions C23_null_rejected.

Example C23_null :
  let m := mkmodule "m" None [] None
             [DChoice "C" None [mkmember "a" (TArray 2 (TArray 3 TNull)) None None]] in
  grammatical m = true /\ parse_module m = Err ConsistencyError.
Proof. split; vm_compute; reflexivity. Qed.

(** C24.  Full statement: a definition with the name of a POSIX type is an
    INTEGER (REAL for Float and Double) with the range of that type.  False
    for the kind of type, *)
Theorem C24_posix_names_refuted :
  exists m m', grammatical m = true /\ parse_module m = Ok m'
    /\ (exists r, In (DSimple "Uint8-t" (TReal r) None) (mod_defs m))
    /\ (exists l, In (DEnumerated "Int8-t" None l) (mod_defs m))
    /\ (exists l, In (DSequence "Float" None l) (mod_defs m)).
Proof.
  exists (mkmodule "m" None [] None
    [DSimple "Uint8-t" (TReal (Some (mkfloat (DFin false 0 (-1074)) "0.0",
                                     mkfloat (DFin false 8972014882652160 (-45)) "255.0"))) None;
     DEnumerated "Int8-t" None [mkenum "a" None None];
     DSequence "Float" None [mkmember "k" TBoolean None None]]).
  eexists. split; [vm_compute; reflexivity|]. split; [vm_compute; reflexivity|].
  repeat split; eexists; simpl; eauto.
Qed.
Print Assumptions C24_posix_names_refuted.

(** but the bounds of a simple type with such a name are numerically those of
    the POSIX type.  Missing for C24: the kind of type. *)
Theorem C24_posix_names_partial : forall m m' n t c b e,
  grammatical m = true -> parse_module m = Ok m' ->
  In (DSimple n t c) (mod_defs m) -> posix_bounds n = Some (b, e) ->
  has_bounds t b e.
Proof. exact posix_accepted. Qed.
Print Assumptions C24_posix_names_partial.

(** The table of POSIX ranges, spelt out. *)
Example C24_table :
  map posix_bounds ["Int8-t"; "Uint16-t"; "Uint64-t"; "Other"]
  = [Some ((-128)%Z # 1, 127%Z # 1); Some (0%Z # 1, 65535%Z # 1);
     Some (0%Z # 1, 18446744073709551615%Z # 1); None].
Proof. vm_compute. reflexivity. Qed.

Example C24_sample :
  exists m m', In m sample_modules /\ parse_module m = Ok m'
    /\ In (DSimple "Uint64-t" (TInteger (Some (0, 18446744073709551615)%Z)) None) (mod_defs m).
Proof.
  exists (nth 3 sample_modules (mkmodule "" None [] None [])). eexists.
  split; [simpl; auto 10|]. split; [vm_compute; reflexivity|]. simpl. auto 20.
Qed.

(** C25: the C type of a REAL range. *)
Theorem C25_real_range_type : forall b e,
  type_ok (TReal (Some (b, e))) = true ->
  (~ double_le (fval b) (fval e) /\ asn1_type (TReal (Some (b, e))) = Err ValueErr)
  \/ (double_le (fval b) (fval e) /\ abs_at_most (fval b) float_bound
      /\ abs_at_most (fval e) float_bound
      /\ asn1_type (TReal (Some (b, e))) = Ok (Some A_FLOAT))
  \/ (double_le (fval b) (fval e) /\ finite (fval b) /\ finite (fval e)
      /\ ~ (abs_at_most (fval b) float_bound /\ abs_at_most (fval e) float_bound)
      /\ asn1_type (TReal (Some (b, e))) = Ok (Some A_DOUBLE))
  \/ (double_le (fval b) (fval e) /\ ~ (finite (fval b) /\ finite (fval e))
      /\ asn1_type (TReal (Some (b, e))) = Err FloatingPointErr).
Proof. exact real_range_cases. Qed.
Print Assumptions C25_real_range_type.

(** The bound is the double nearest to 3.4e38: closer than half of the
    distance 2^75 between neighbouring doubles; and all four cases occur. *)
Example C25_bound : (Z.abs (8999725064576941 * 2 ^ 75 - 34 * 10 ^ 37) <= 2 ^ 74)%Z.
Proof. vm_compute. discriminate. Qed.

Example C25_cases :
  let zero := mkfloat (DFin false 0 (-1074)) "0.0" in
  let big := mkfloat (DFin false 8271806125530277 80) "1e+40" in
  let inf := mkfloat (DInf false) "inf" in
  map (fun r => asn1_type (TReal (Some r))) [(zero, zero); (zero, big); (big, zero); (zero, inf)]
  = [Ok (Some A_FLOAT); Ok (Some A_DOUBLE); Err ValueErr; Err FloatingPointErr]
  /\ forallb type_ok [TReal (Some (zero, big)); TReal (Some (zero, inf))] = true.
Proof. split; vm_compute; reflexivity. Qed.

(** C26: comments of an accepted module contain no brackets and no "--"; *)
Theorem C26_comments_clean : forall m m' c,
  grammatical m = true -> parse_module m = Ok m' -> In c (module_comments m) ->
  ~ occurs "[" (cm_text c) /\ ~ occurs "]" (cm_text c) /\ ~ occurs "--" (cm_text c).
Proof.
  exact (fun m m' c Hg H Hc =>
    proj1 (Forall_forall clean _)
      (proj1 (proj1 (module_accepted_iff m Hg) (ex_intro _ m' H))) c Hc).
Qed.
Print Assumptions C26_comments_clean.

(** so unit and text can be read back from the comments in generated C. *)
Theorem C26_unit_readable : forall c d,
  comment_ok c = true -> comment_ok d = true -> clean c -> clean d ->
  item_comment c = item_comment d -> cm_text c = cm_text d /\ cm_unit c = cm_unit d.
Proof. exact item_comment_readable. Qed.
Print Assumptions C26_unit_readable.

Example C26_nontrivial :
  let c := mkcomment "CPU usage" "%" false in
  comment_ok c = true /\ item_comment c = "[%] CPU usage"
  /\ (exists m m', In m sample_modules /\ parse_module m = Ok m' /\ In c (module_comments m)).
Proof.
  split; [reflexivity|]. split; [reflexivity|].
  exists (nth 2 sample_modules (mkmodule "" None [] None [])). eexists.
  split; [simpl; auto 10|]. split; [vm_compute; reflexivity|].
  vm_compute. auto 20.
Qed.
