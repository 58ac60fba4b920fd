(** * Properties C04, C05, C06, C08, C09: sizes and C types of integers *)
From Verif Require Import Base PyNum PyStr Ast Size Bundle CCommon GenCfs Spec_Enum Spec_Check Spec_Grammar
  Spec_Bundle Spec_Size Spec_Gen Size_proofs Field_proofs Samples.
Open Scope string_scope.
Open Scope Z_scope.

(** C04: the size of a member of type INTEGER(b..e), b >= 0, inline or named,
    is the least width that holds every value. *)
Theorem C04_unsigned_size : forall input bun t b e fuel,
  Forall (fun m => grammatical m = true) input -> accepted input bun ->
  member_type (definitions input) t -> integer_type (definitions input) t b e -> 0 <= b ->
  exists w, member_size (S fuel) (all_defs bun) t = Ok w /\ 0 <= w /\ holds_unsigned w b e
    /\ forall w', 0 <= w' -> holds_unsigned w' b e -> w <= w'.
Proof. exact unsigned_member_size. Qed.
Print Assumptions C04_unsigned_size.

(** C05: with b < 0 it is the smallest of 8, 16, 32, 64 that holds the range
    in two's complement; a ValueError if there is none. *)
Theorem C05_signed_size : forall input bun t b e fuel,
  Forall (fun m => grammatical m = true) input -> accepted input bun ->
  member_type (definitions input) t -> integer_type (definitions input) t b e -> b < 0 ->
  (exists w, member_size (S fuel) (all_defs bun) t = Ok w
     /\ smallest [8; 16; 32; 64] (fun w => holds_signed w b e) w)
  \/ (member_size (S fuel) (all_defs bun) t = Err ValueErr
      /\ forall w, In w [8; 16; 32; 64] -> ~ holds_signed w b e).
Proof. exact signed_member_size. Qed.
Print Assumptions C05_signed_size.

Example C04_C05_sample : exists bun,
  accepted [integer_module] bun
  /\ member_type (definitions [integer_module]) (TName "Count")
  /\ integer_type (definitions [integer_module]) (TName "Count") 0 1000
  /\ member_size 1 (all_defs bun) (TName "Count") = Ok 10
  /\ member_type (definitions [integer_module]) (TInteger (Some (-40000, 9)))
  /\ integer_type (definitions [integer_module]) (TInteger (Some (-40000, 9))) (-40000) 9
  /\ member_size 1 (all_defs bun) (TInteger (Some (-40000, 9))) = Ok 32.
Proof.
  eexists. split; [left; exists ["m"]; vm_compute; reflexivity|].
  split; [do 2 eexists; split; [do 4 right; left; reflexivity|]; split; [do 3 right; left; reflexivity|reflexivity]|].
  split; [right; do 2 eexists; split; [reflexivity|]; do 3 right; left; reflexivity|].
  split; [vm_compute; reflexivity|].
  split; [do 2 eexists; split; [do 4 right; left; reflexivity|]; split; [do 5 right; left; reflexivity|reflexivity]|].
  split; [left; reflexivity|]. vm_compute. reflexivity.
Qed.

(** C06.  Full statement: whenever [bit_to_bytes bits = Ok n], 8 * n = bits.
    False, the division goes through a double: *)
Theorem C06_bytes_exact_refuted :
  exists bits n, bit_to_bytes bits = Ok n /\ bits mod 8 = 0 /\ 8 * n <> bits.
Proof.
  exists (8 * (2 ^ 53 + 1)), (2 ^ 53). split; [vm_compute; reflexivity|].
  split; [reflexivity|]. vm_compute. discriminate.
Qed.
Print Assumptions C06_bytes_exact_refuted.

(** What holds: up to 2^56 bits the result is exact.  Missing for C06: larger
    sizes, where it depends on the low bits. *)
Theorem C06_bytes_exact_partial : forall bits, - 2 ^ 56 <= bits <= 2 ^ 56 -> bits mod 8 = 0 ->
  exists n, bit_to_bytes bits = Ok n /\ 8 * n = bits.
Proof. exact bit_to_bytes_small. Qed.
Print Assumptions C06_bytes_exact_partial.

Theorem C06_rejected_iff : forall bits, bit_to_bytes bits = Err ValueErr <-> bits mod 8 <> 0.
Proof. exact bit_to_bytes_value_error. Qed.
Print Assumptions C06_rejected_iff.

(** C08: the struct field of a member of an unsigned integer type that needs
    [w] bits. *)
Theorem C08_unsigned_field : forall names input b bm fuel c n cm l cm' fields i k lo hi w,
  Forall (fun m => grammatical m = true) input -> build_from_config names input = Ok b ->
  In bm (b_modules b) -> generated fuel b bm c ->
  In (DSequence n cm l) (mod_defs (bm_mod bm)) -> In (CStruct cm' (c_name n) fields) (cd_data c) ->
  nth_error l i = Some k ->
  integer_type (definitions input) (m_type k) lo hi -> 0 <= lo -> least_width w hi -> 1 <= w <= 64 ->
  exists f size, nth_error fields i = Some f /\ cf_name f = c_name (m_key k) /\ cf_array f = None
    /\ In (size, cf_type f) UINT_TYPES
    /\ smallest [8; 16; 32; 64] (fun s => holds_unsigned s lo hi) size
    /\ (In w [8; 16; 32; 64] -> cf_bits f = None) /\ (~ In w [8; 16; 32; 64] -> cf_bits f = Some w).
Proof. exact unsigned_struct_field. Qed.
Print Assumptions C08_unsigned_field.

(** The range 0..0, which needs no bits, makes the generators fail. *)
Theorem C08_zero_range_fails : forall names input b bm fuel n cm l k,
  Forall (fun m => grammatical m = true) input -> build_from_config names input = Ok b ->
  In bm (b_modules b) -> In (DSequence n cm l) (mod_defs (bm_mod bm)) -> In k l ->
  integer_type (definitions input) (m_type k) 0 0 -> forall c, ~ generated fuel b bm c.
Proof. exact zero_range_fails. Qed.
Print Assumptions C08_zero_range_fails.

(** C09.  Full statement: the C width of the field of a member of a signed
    integer type is its computed size.  False: the field of INTEGER(-100..100)
    (8 bits) is a plain [int] (at least 16 bits in C). *)
Theorem C09_signed_field_refuted :
  exists names input b bm fuel c fields f,
    Forall (fun m => grammatical m = true) input /\ build_from_config names input = Ok b
    /\ In bm (b_modules b) /\ generated fuel b bm c /\ In (CStruct None "S" fields) (cd_data c)
    /\ In f fields /\ cf_name f = "c" /\ cf_type f = "int" /\ cf_bits f = None /\ cf_array f = None
    /\ In (DSequence "S" None
             [mkmember "a" (TName "Int16-t") None None; mkmember "b" (TName "Uint8-t") None None;
              mkmember "c" (TName "Angle") None None; mkmember "d" (TName "Count") None None;
              mkmember "e" (TInteger (Some (5, 9))) None None;
              mkmember "f" (TInteger (Some (-40000, 9))) None None]) (definitions input)
    /\ integer_type (definitions input) (TName "Angle") (-100) 100
    /\ member_size fuel (all_defs b) (TName "Angle") = Ok 8.
Proof.
  exists ["m"], [integer_module]. eexists. eexists. exists 5%nat. eexists. eexists. eexists.
  split; [exact integer_grammatical|]. split; [vm_compute; reflexivity|]. split; [left; reflexivity|].
  split; [left; vm_compute; reflexivity|]. split; [left; reflexivity|].
  split; [do 2 right; left; reflexivity|]. do 4 (split; [reflexivity|]).
  split; [do 4 right; left; reflexivity|].
  split; [right; do 2 eexists; split; [reflexivity|]; do 2 right; left; reflexivity|].
  vm_compute. reflexivity.
Qed.
Print Assumptions C09_signed_field_refuted.

(** What holds: members whose type has a POSIX name get the C type of exactly
    the computed width; all other signed members get [int], whatever their
    size.  Missing for C09: the latter are right only if the size is that of
    [int]. *)
Theorem C09_signed_field_partial : forall names input b bm fuel fuel' c n cm l cm' fields i k lo hi w,
  Forall (fun m => grammatical m = true) input -> build_from_config names input = Ok b ->
  In bm (b_modules b) -> generated fuel b bm c ->
  In (DSequence n cm l) (mod_defs (bm_mod bm)) -> In (CStruct cm' (c_name n) fields) (cd_data c) ->
  nth_error l i = Some k ->
  integer_type (definitions input) (m_type k) lo hi -> lo < 0 ->
  member_size (S fuel') (all_defs b) (m_type k) = Ok w ->
  exists f, nth_error fields i = Some f /\ cf_name f = c_name (m_key k) /\ cf_array f = None
    /\ cf_bits f = None
    /\ ((exists n, m_type k = TName n /\ posix_bounds n <> None) -> In (w, cf_type f) INT_TYPES)
    /\ ((forall n, m_type k = TName n -> posix_bounds n = None) -> cf_type f = "int").
Proof. exact signed_struct_field. Qed.
Print Assumptions C09_signed_field_partial.

(** The three C-like commands generate the sample, whose struct is: *)
Example C08_C09_sample : exists b bm c,
  build_from_config ["m"] [integer_module] = Ok b /\ In bm (b_modules b)
  /\ cfs_cdata 5 b bm = Ok c
  /\ In (CStruct None "S"
       [mkcfield None "int16_t" "a" None None; mkcfield None "uint8_t" "b" None None;
        mkcfield None "int" "c" None None; mkcfield None "uint16_t" "d" (Some 10) None;
        mkcfield None "uint8_t" "e" (Some 4) None; mkcfield None "int" "f" None None]) (cd_data c).
Proof.
  do 3 eexists. split; [vm_compute; reflexivity|]. split; [left; reflexivity|].
  split; [vm_compute; reflexivity|]. left. reflexivity.
Qed.
