From Coq Require Import Lia.
(** * Properties C03 and C10: C structs and COSMOS packets side by side *)
From Verif Require Import Base PyNum PyStr Ast Size Bundle CCommon GenCfs GenCosmos Main Spec_Enum Enum_proofs Spec_Grammar Spec_Num Spec_Check
  Spec_Bundle Spec_Size Spec_Gen Spec_Cosmos Spec_Packed Cosmos_proofs Packed_proofs.
Open Scope string_scope.
Open Scope Z_scope.

(** ** A sample *)

Definition mode_items : list enum_item :=
  [mkenum "off" (Some 0) None; mkenum "on" (Some 1) None; mkenum "auto" (Some 2) None].
Definition packed_head : list member :=
  [mkmember "a" (TInteger (Some (0, 7))) None None; mkmember "b" TBoolean None None;
   mkmember "c" (TInteger (Some (0, 15))) None None].
Definition packed_msg : list member :=
  [mkmember "head" (TName "Head") None None; mkmember "number" (TName "Uint16-t") None None;
   mkmember "mode" (TName "Mode") None None; mkmember "rest" (TInteger (Some (0, 63))) None None;
   mkmember "text" (TString IA5String 4) None None].
Definition packed_module : module :=
  mkmodule "packed" None [] None
    [DSimple "Uint16-t" (TInteger (Some (0, 65535))) None;
     DEnumerated "Mode" None mode_items;
     DSequence "Head" None packed_head;
     DSequence "Msg" None packed_msg].
Definition packed_bundle : bundle := match build_from_config ["packed"] [packed_module] with Ok b => b | _ => mkbundle [] [] end.
Lemma packed_built : build_from_config ["packed"] [packed_module] = Ok packed_bundle.
Proof. vm_compute. reflexivity. Qed.
Definition packed_data : list cdecl :=
  match b_modules packed_bundle with [bm] => match cfs_cdata 9 packed_bundle bm with Ok c => cd_data c | _ => [] end | _ => [] end.
Lemma packed_declarations : declarations 9 packed_bundle packed_data.
Proof. eexists [_]. split; [constructor; [left; vm_compute; reflexivity|constructor]|vm_compute; reflexivity]. Qed.

Lemma one_visible : forall m d, In d (mod_defs m) -> visible [m] 0 d.
Proof. intros m d H. exists 0%nat, m. split; [constructor|]. split; [reflexivity|exact H]. Qed.

Definition head_leaves (p : list member) : list leaf :=
  match packed_head with
  | [a; b; c] => [mkleaf p a (m_type a) A_UINT 3 []; mkleaf p b TBoolean A_BOOL 1 ["False"; "True"]; mkleaf p c (m_type c) A_UINT 4 []]
  | _ => []
  end.
Definition msg_leaves : list leaf :=
  match packed_msg with
  | [h; n; m; r; t] =>
      (head_leaves [h]
       ++ [mkleaf [] n (TInteger (Some (0, 65535))) A_UINT 16 [];
           mkleaf [] m (TInteger (Some (0, 2))) A_UINT 2 ["off"; "on"; "auto"];
           mkleaf [] r (m_type r) A_UINT 6 []; mkleaf [] t (m_type t) A_STRING 32 []])%list
  | _ => []
  end.

Lemma unsigned_item : forall ms i z, 0 < z -> item_type ms i (TInteger (Some (0, z))) (TInteger (Some (0, z))) A_UINT (bit_length z) [].
Proof. intros ms i z H. apply item_number; [reflexivity|discriminate|]. apply written_unsigned; [lia|apply bit_length_least; lia]. Qed.

(** ** C03: enumerations *)

(** The items written for the messages agree with the headers about all
    enumerations. *)
Theorem C03_enumerations_agree : forall names input b fuel mn msgs target fs fs',
  Forall (fun m => grammatical m = true) input -> build_from_config names input = Ok b ->
  run fuel (GenerateCosmos mn msgs target) input fs = (fs', Ok tt) ->
  exists ts, folder_get fs' (target ++ ".txt")
       = Some (match folder_get fs (target ++ ".txt") with Some old => old | None => "" end ++ text_of_run ts)
    /\ ((msgs = [] /\ ts = [])
        \/ exists i m, nth_error (all_modules b) i = Some m /\ mod_name m = mn
           /\ Forall2 (text_of_message (fun lf _ => enum_agrees b lf) (all_modules b) i m target) msgs ts).
Proof. exact enumerations_agree. Qed.
Print Assumptions C03_enumerations_agree.

Example C03_sample : grammatical packed_module = true
  /\ build_from_config ["packed"] [packed_module] = Ok packed_bundle
  /\ (exists fs, run 9 (GenerateCosmos "packed" ["Msg"] "out") [packed_module] [] = (fs, Ok tt))
  /\ exists lf c bm items fields f, In lf msg_leaves /\ element (m_type (lf_member lf)) = TName "Mode"
     /\ In (DEnumerated "Mode" None mode_items) (all_defs packed_bundle) /\ lf_bits lf = 2
     /\ In bm (b_modules packed_bundle) /\ generated 9 packed_bundle bm c
     /\ In (CEnum None "Mode" items) (cd_data c) /\ map (fun x => fst x) items = [("off", 0); ("on", 1); ("auto", 2)]
     /\ In (CStruct None "Msg" fields) (cd_data c) /\ nth_error fields 2 = Some f /\ cf_bits f = Some 2.
Proof.
  split; [vm_compute; reflexivity|]. split; [exact packed_built|]. split; [eexists; vm_compute; reflexivity|].
  exists (mkleaf [] (mkmember "mode" (TName "Mode") None None) (TInteger (Some (0, 2))) A_UINT 2 ["off"; "on"; "auto"]).
  do 5 eexists. split; [vm_compute; tauto|]. split; [reflexivity|]. split; [vm_compute; tauto|]. split; [reflexivity|].
  split; [left; reflexivity|]. split; [left; vm_compute; reflexivity|].
  split; [left; reflexivity|]. split; [reflexivity|].
  split; [right; right; left; reflexivity|]. split; reflexivity.
Qed.

(** ** C10: packed structs *)

(** The fields of the struct are the items of the packet - same names, same
    first bits, same numbers of bits - iff every item that is no bit-field
    and every nested sequence starts at a byte.  Missing: messages with items
    that are no [bit_leaf] and no [byte_leaf], and arrays of sequences; see
    the refutations. *)
Theorem C10_same_bits_partial : forall names input b fuel D,
  Forall (fun m => grammatical m = true) input -> build_from_config names input = Ok b -> declarations fuel b D ->
  forall i n cm l ls, In (DSequence n cm l) (all_defs b) -> supported (all_modules b) i [] l ls ->
  packet_leaves (all_modules b) i [] l ls
  /\ exists cm' fields ss e, In (CStruct cm' (c_name n) fields) D /\ c_layout D [] 0 fields ss e
     /\ (forall cm2 fields2, In (CStruct cm2 (c_name n) fields2) D -> fields2 = fields)
     /\ (forall ss2 e2, c_layout D [] 0 fields ss2 e2 -> ss2 = ss /\ e2 = e)
     /\ (ss = packet_slots 0 ls <-> aligned (all_modules b) i [] 0 l ls)
     /\ (ss = packet_slots 0 ls -> up8 e = up8 (packet_end 0 ls)).
Proof.
  intros names input b fuel D Hg Hb HD i n cm l ls H S. split; [apply supported_leaves; exact S|].
  exact (packed_agree names input b fuel D (conj Hg Hb) HD i n cm l ls H S).
Qed.
Print Assumptions C10_same_bits_partial.

Lemma packed_modules : all_modules packed_bundle = [packed_module].
Proof. vm_compute. reflexivity. Qed.

Ltac no_posix := let H := fresh in intros (? & H & ?); injection H as <-; simpl in *; intuition discriminate.
Ltac see := apply one_visible; vm_compute; tauto.

Lemma uint16_item : item_type [packed_module] 0 (TName "Uint16-t") (TInteger (Some (0, 65535))) A_UINT 16 [].
Proof. eapply item_simple; [reflexivity|see|]. apply written_unsigned; [lia|exact (bit_length_least 65535 ltac:(lia))]. Qed.
Lemma mode_item : item_type [packed_module] 0 (TName "Mode") (TInteger (Some (0, 2))) A_UINT 2 ["off"; "on"; "auto"].
Proof.
  refine (item_enum _ _ (TName "Mode") "Mode" None mode_items 2 eq_refl _ (bit_length_least 2 ltac:(lia))). see.
Qed.

Lemma head_supported : forall p, supported [packed_module] 0 p packed_head (head_leaves p).
Proof.
  intros p. apply sup_leaf; [exact (unsigned_item _ _ 7 ltac:(lia))| |].
  { left. split; [reflexivity|]. split; [simpl; lia|]. right. right. simpl. intuition discriminate. }
  apply sup_leaf; [apply item_boolean; reflexivity| |].
  { left. split; [reflexivity|]. split; [simpl; lia|]. left. reflexivity. }
  apply sup_leaf; [exact (unsigned_item _ _ 15 ltac:(lia))| |apply sup_nil].
  left. split; [reflexivity|]. split; [simpl; lia|]. right. right. simpl. intuition discriminate.
Qed.

Lemma packed_supported : supported [packed_module] 0 [] packed_msg msg_leaves.
Proof.
  apply sup_nested with (n := "Head") (cm := None) (l := packed_head); [reflexivity|no_posix|see|apply head_supported|].
  apply sup_leaf; [exact uint16_item| |].
  { right. split; [reflexivity|]. right. left. reflexivity. }
  apply sup_leaf; [exact mode_item| |].
  { left. split; [reflexivity|]. split; [simpl; lia|]. right. left. split; [reflexivity|]. split; [discriminate|]. simpl. no_posix. }
  apply sup_leaf; [exact (unsigned_item _ _ 63 ltac:(lia))| |].
  { left. split; [reflexivity|]. split; [simpl; lia|]. right. right. simpl. intuition discriminate. }
  apply sup_leaf; [exact (item_string _ _ IA5String 4)| |apply sup_nil]. right. exact I.
Qed.

Lemma packed_aligned : aligned [packed_module] 0 [] 0 packed_msg msg_leaves.
Proof.
  apply al_nested with (n := "Head") (cm := None) (l := packed_head); [reflexivity|see|reflexivity| |right; reflexivity|].
  { apply al_leaf; [exact (unsigned_item _ _ 7 ltac:(lia))|right; reflexivity|].
    apply al_leaf; [apply item_boolean; reflexivity| |].
    { left. split; [reflexivity|]. split; [simpl; lia|]. left. reflexivity. }
    apply al_leaf; [exact (unsigned_item _ _ 15 ltac:(lia))| |apply al_nil].
    left. split; [reflexivity|]. split; [simpl; lia|]. right. right. simpl. intuition discriminate. }
  apply al_leaf; [exact uint16_item|right; reflexivity|].
  apply al_leaf; [exact mode_item|right; reflexivity|].
  apply al_leaf; [exact (unsigned_item _ _ 63 ltac:(lia))| |].
  { left. split; [reflexivity|]. split; [simpl; lia|]. right. right. simpl. intuition discriminate. }
  apply al_leaf; [exact (item_string _ _ IA5String 4)|right; reflexivity|apply al_nil].
Qed.

(** The hypotheses are met, and both sides of the equivalence. *)
Example C10_sample : grammatical packed_module = true
  /\ build_from_config ["packed"] [packed_module] = Ok packed_bundle /\ declarations 9 packed_bundle packed_data
  /\ In (DSequence "Msg" None packed_msg) (all_defs packed_bundle)
  /\ supported (all_modules packed_bundle) 0 [] packed_msg msg_leaves
  /\ aligned (all_modules packed_bundle) 0 [] 0 packed_msg msg_leaves
  /\ packet_slots 0 msg_leaves
     = [mkslot ["head"; "a"] 0 3; mkslot ["head"; "b"] 3 1; mkslot ["head"; "c"] 4 4; mkslot ["number"] 8 16;
        mkslot ["mode"] 24 2; mkslot ["rest"] 26 6; mkslot ["text"] 32 32].
Proof.
  split; [vm_compute; reflexivity|]. split; [exact packed_built|]. split; [exact packed_declarations|].
  split; [vm_compute; tauto|]. rewrite packed_modules. split; [exact packed_supported|]. split; [exact packed_aligned|].
  reflexivity.
Qed.

Ltac layout := repeat first
  [ apply lay_nil
  | eapply lay_bits; [reflexivity|reflexivity|apply width_basic; vm_compute; tauto|lia|]
  | eapply lay_basic; [reflexivity|reflexivity|apply width_basic; vm_compute; tauto|]
  | eapply lay_array; [reflexivity|reflexivity|apply width_basic; vm_compute; tauto|]
  | eapply lay_struct; [reflexivity|reflexivity|first [left; reflexivity|right; left; reflexivity]| |]
  | eapply lay_structs; [reflexivity|reflexivity|first [left; reflexivity|right; left; reflexivity]|simpl] ].

Definition sample_module (l : list definition) : module := mkmodule "m" None [] None l.
Definition plain_member (k : string) (t : asn_type) : member := mkmember k t None None.

Ltac both := eexists _, _, 9%nat, _, _, _, _, _, _, _, _; split; [reflexivity|]; split; [vm_compute; reflexivity|];
  split; [vm_compute; reflexivity|];
  split; [eexists [_]; split; [constructor; [left; vm_compute; reflexivity|constructor]|vm_compute; reflexivity]|];
  split; [vm_compute; reflexivity|]; split; [right; left; reflexivity|].

(** A byte after a bit-field: the struct has a gap, the packet has none. *)
Theorem C10_gap_refuted : exists input cs ps, both_describe input "S" cs ps
  /\ input = [sample_module [DSimple "Uint8-t" (TInteger (Some (0, 255))) None;
                             DSequence "S" None [plain_member "a" TBoolean; plain_member "b" (TName "Uint8-t")]]]
  /\ cs = [mkslot ["a"] 0 1; mkslot ["b"] 8 8] /\ ps = [mkslot ["a"] 0 1; mkslot ["b"] 1 8].
Proof.
  do 3 eexists. split; [|split; [reflexivity|split; reflexivity]]. both.
  split; [|split; [left; reflexivity|split; [layout|]]].
  - apply pl_leaf; [apply item_boolean; reflexivity|]. apply pl_leaf; [|apply pl_nil].
    eapply item_simple; [reflexivity|apply one_visible; left; reflexivity|]. apply written_unsigned; [lia|exact (bit_length_least 255 ltac:(lia))].
  - reflexivity.
Qed.
Print Assumptions C10_gap_refuted.

(** A range with negative numbers: an int in the struct, 8 bits in the packet. *)
Theorem C10_signed_refuted : exists input cs ps, both_describe input "S" cs ps
  /\ input = [sample_module [DSimple "Level" (TInteger (Some (-100, 100))) None;
                             DSequence "S" None [plain_member "a" (TName "Level")]]]
  /\ cs = [mkslot ["a"] 0 32] /\ ps = [mkslot ["a"] 0 8].
Proof.
  do 3 eexists. split; [|split; [reflexivity|split; reflexivity]]. both.
  split; [|split; [left; reflexivity|split; [layout|]]].
  - apply pl_leaf; [|apply pl_nil].
    eapply item_simple; [reflexivity|apply one_visible; left; reflexivity|]. apply written_signed; [lia|].
    split; [vm_compute; tauto|]. split; [intros v Hv; simpl; lia|]. intros m Hm _. simpl in Hm. lia.
  - reflexivity.
Qed.
Print Assumptions C10_signed_refuted.

(** A type that is another name for BOOLEAN: a bool in the struct, one bit in
    the packet. *)
Theorem C10_boolean_refuted : exists input cs ps, both_describe input "S" cs ps
  /\ input = [sample_module [DSimple "Flag" TBoolean None; DSequence "S" None [plain_member "a" (TName "Flag")]]]
  /\ cs = [mkslot ["a"] 0 8] /\ ps = [mkslot ["a"] 0 1].
Proof.
  do 3 eexists. split; [|split; [reflexivity|split; reflexivity]]. both.
  split; [|split; [left; reflexivity|split; [layout|]]].
  - apply pl_leaf; [|apply pl_nil].
    eapply item_simple; [reflexivity|apply one_visible; left; reflexivity|]. apply written_boolean. reflexivity.
  - reflexivity.
Qed.
Print Assumptions C10_boolean_refuted.

(** A type called Uint8-t that is REAL: one byte in the struct, a FLOAT in the
    packet. *)
Theorem C10_posix_real_refuted : exists input cs ps, both_describe input "S" cs ps
  /\ input = [sample_module [DSimple "Uint8-t" (TReal (Some (mkfloat (DFin false 0 (-1074)) "0.0", mkfloat (DFin false 8972014882652160 (-45)) "255.0"))) None;
                             DSequence "S" None [plain_member "a" (TName "Uint8-t")]]]
  /\ cs = [mkslot ["a"] 0 8] /\ ps = [mkslot ["a"] 0 32].
Proof.
  do 3 eexists. split; [|split; [reflexivity|split; reflexivity]]. both.
  split; [|split; [left; reflexivity|split; [layout|]]].
  - apply pl_leaf; [|apply pl_nil].
    eapply item_simple; [reflexivity|apply one_visible; left; reflexivity|]. apply written_single; vm_compute; intuition discriminate.
  - reflexivity.
Qed.
Print Assumptions C10_posix_real_refuted.

(** An array of sequences: all elements in the struct, one in the packet. *)
Theorem C10_sequences_refuted : exists input cs ps, both_describe input "S" cs ps
  /\ input = [sample_module [DSequence "T" None [plain_member "x" (TInteger (Some (0, 255)))];
                             DSequence "S" None [plain_member "a" (TArray 3 (TName "T"))]]]
  /\ cs = [mkslot ["a"; "x"] 0 8; mkslot ["a"; "x"] 8 8; mkslot ["a"; "x"] 16 8] /\ ps = [mkslot ["a"; "x"] 0 8].
Proof.
  do 3 eexists. split; [|split; [reflexivity|split; reflexivity]]. both.
  split; [|split; [right; left; reflexivity|split; [|]]].
  - refine (pl_nested _ _ [] (plain_member "a" (TArray 3 (TName "T"))) "T" None [plain_member "x" (TInteger (Some (0, 255)))] [] [_] [] eq_refl _ _ (pl_nil _ _ _)).
    + apply one_visible. left. reflexivity.
    + apply pl_leaf; [exact (unsigned_item _ _ 255 ltac:(lia))|apply pl_nil].
  - eapply lay_structs; [reflexivity|reflexivity|left; reflexivity|]. simpl.
    apply lay_struct with (ss := [mkslot ["a"; "x"] 0 8]) (e := 8) (cm := None) (fields := [mkcfield None "uint8_t" "x" None None]);
      [reflexivity|reflexivity|left; reflexivity|layout|].
    apply lay_struct with (ss := [mkslot ["a"; "x"] 8 8]) (e := 16) (cm := None) (fields := [mkcfield None "uint8_t" "x" None None]);
      [reflexivity|reflexivity|left; reflexivity|layout|].
    apply lay_struct with (ss := [mkslot ["a"; "x"] 16 8]) (ss' := []) (e := 24) (cm := None) (fields := [mkcfield None "uint8_t" "x" None None]);
      [reflexivity|reflexivity|left; reflexivity|layout|apply lay_nil].
  - reflexivity.
Qed.
Print Assumptions C10_sequences_refuted.
