(** * Properties C37, C38, C39, C40: binary images *)
From Coq Require Import QArith Permutation Lia.
From Verif Require Import Base PyNum PyStr Ast Processor Bundle CCommon GenBinary Main Spec_Enum Spec_Grammar Spec_Num Spec_Check
  Spec_Bundle Spec_Size Spec_Layout Spec_Ieee Spec_Binary Binary_proofs.
Open Scope string_scope.
Open Scope Z_scope.

(** C37: a component whose type is encoded as an integer.  [w] is the size the
    generator has looked up for the member. *)
Theorem C37_integers_packed : forall input bun d k fuel w s w' e v,
  Forall (fun m => grammatical m = true) input -> accepted input bun ->
  In d (definitions input) -> In k (members_of d) -> member_size fuel (all_defs bun) (m_type k) = Ok w ->
  encoded_as (definitions input) (m_type k) (EInt s w') ->
  match int_value v with
  | Some z =>
      (fits s w' z -> exists b, leaf_bytes (Some e) (mkspec (get_c_type (m_type k)) w (type_name (m_type k))) v = Ok [b]
                        /\ int_image e s w' z b)
      /\ (~ fits s w' z -> leaf_bytes (Some e) (mkspec (get_c_type (m_type k)) w (type_name (m_type k))) v = Err StructErr)
  | None => leaf_bytes (Some e) (mkspec (get_c_type (m_type k)) w (type_name (m_type k))) v = Err StructErr
  end.
Proof. exact leaf_integer. Qed.
Print Assumptions C37_integers_packed.

Theorem C37_byte_orders : forall k v b,
  leaf_bytes (Some LittleEndian) k v = Ok [b] -> leaf_bytes (Some BigEndian) k v = Ok [rev b].
Proof. exact leaf_reversed. Qed.
Print Assumptions C37_byte_orders.

(** C38: REAL with small bounds, and the type Float. *)
Theorem C38_singles_packed : forall input bun d k fuel w e v,
  Forall (fun m => grammatical m = true) input -> accepted input bun ->
  In d (definitions input) -> In k (members_of d) -> member_size fuel (all_defs bun) (m_type k) = Ok w ->
  encoded_as (definitions input) (m_type k) ESingle ->
  (exists x, real_value v x
     /\ ((too_large x /\ leaf_bytes (Some e) (mkspec (get_c_type (m_type k)) w (type_name (m_type k))) v = Err OverflowErr)
         \/ (~ too_large x /\ exists b, leaf_bytes (Some e) (mkspec (get_c_type (m_type k)) w (type_name (m_type k))) v = Ok [b]
                              /\ single_image e x b)))
  \/ ((forall x, ~ real_value v x)
      /\ leaf_bytes (Some e) (mkspec (get_c_type (m_type k)) w (type_name (m_type k))) v = Err StructErr).
Proof. exact leaf_single. Qed.
Print Assumptions C38_singles_packed.

(** REAL with large bounds, and the type Double. *)
Theorem C38_doubles_packed : forall input bun d k fuel w e v,
  Forall (fun m => grammatical m = true) input -> accepted input bun ->
  In d (definitions input) -> In k (members_of d) -> member_size fuel (all_defs bun) (m_type k) = Ok w ->
  encoded_as (definitions input) (m_type k) EDouble -> wval_ok v = true ->
  (exists x b, real_value v x
     /\ leaf_bytes (Some e) (mkspec (get_c_type (m_type k)) w (type_name (m_type k))) v = Ok [b] /\ double_image e x b)
  \/ ((forall x, ~ real_value v x)
      /\ leaf_bytes (Some e) (mkspec (get_c_type (m_type k)) w (type_name (m_type k))) v = Err StructErr).
Proof. exact leaf_double. Qed.
Print Assumptions C38_doubles_packed.

Definition f_zero := mkfloat (DFin false 0 (-1074)) "0.0".
Definition f_one := mkfloat (DFin false 4503599627370496 (-52)) "1.0".
Definition f_tenth := mkfloat (DFin false 7205759403792794 (-56)) "0.1".
Definition f_large := mkfloat (DFin false 8271806125530277 80) "1e+40".

Definition header_type : definition :=
  DSequence "Header" None
    [mkmember "a" (TName "Uint8-t") None None; mkmember "b" (TInteger (Some (-1000, 1000))) None None;
     mkmember "c" (TReal (Some (f_zero, f_one))) None None; mkmember "d" (TReal (Some (f_zero, f_large))) None None].
Definition in_order : wcomps :=
  WC None [WI "a" (VInt 7) None; WI "b" (VInt (-2)) None; WI "c" (VFloat f_tenth) None; WI "d" (VInt 3) None].

Definition image_module : module :=
  mkmodule "m" None [] None
    [header_type; DSimple "Uint8-t" (TInteger (Some (0, 255))) None;
     DSequence "Cmd" None [mkmember "h" (TName "Header") None (Some in_order)]].

Lemma image_accepted : exists bun, accepted [image_module] bun
  /\ all_defs bun = mod_defs image_module.
Proof. eexists. split; [left; exists ["m"]; vm_compute; reflexivity|]. vm_compute. reflexivity. Qed.

Lemma image_grammatical : Forall (fun m => grammatical m = true) [image_module].
Proof. repeat constructor; vm_compute; reflexivity. Qed.

(** The types of the four components are encoded in the four ways. *)
Lemma image_encodings :
  encoded_as (definitions [image_module]) (TName "Uint8-t") (EInt false 8)
  /\ encoded_as (definitions [image_module]) (TInteger (Some (-1000, 1000))) (EInt true 16)
  /\ encoded_as (definitions [image_module]) (TReal (Some (f_zero, f_one))) ESingle
  /\ encoded_as (definitions [image_module]) (TReal (Some (f_zero, f_large))) EDouble.
Proof.
  split; [|split; [|split]].
  - eapply enc_posix; [reflexivity|left; reflexivity| |left; reflexivity]. left. eapply leaf_simple; [right; left; reflexivity|].
    apply size_unsigned; [discriminate|]. split; [discriminate|]. split; [reflexivity|]. intros v V0 V.
    destruct (Z.le_gt_cases 8 v) as [L|L]; [exact L|]. exfalso. assert (P : 2 ^ v <= 2 ^ 7) by (apply Z.pow_le_mono_r; [reflexivity|]; now apply Z.lt_succ_r).
    apply (Z.lt_irrefl 255). eapply Z.lt_le_trans; [exact V|]. eapply Z.le_trans; [exact P|]. discriminate.
  - apply enc_signed; [reflexivity|]. split; [right; left; reflexivity|]. split; [intros v Hv; simpl; lia|].
    intros x [<-|[<-|[<-|[<-|[]]]]] H; try lia. specialize (H 1000). simpl in H. lia.
  - apply enc_single; [split; discriminate|split; discriminate].
  - apply enc_double. intros (_ & (_ & H)). apply H. reflexivity.
Qed.

Example C37_C38_sample : exists bun,
  accepted [image_module] bun
  /\ member_size 3 (all_defs bun) (TInteger (Some (-1000, 1000))) = Ok 16
  /\ fits true 16 (-2) /\ ~ fits true 16 40000
  /\ int_image BigEndian true 16 (-2) [255; 254]
  /\ leaf_bytes (Some BigEndian) (mkspec (get_c_type (TInteger (Some (-1000, 1000)))) 16 "INTEGER") (VInt (-2)) = Ok [[255; 254]]
  /\ leaf_bytes (Some BigEndian) (mkspec (get_c_type (TReal (Some (f_zero, f_one)))) 32 "REAL") (VFloat f_tenth)
     = Ok [[61; 204; 204; 205]].
Proof.
  destruct image_accepted as (bun & A & E). exists bun. split; [exact A|]. rewrite E. split; [vm_compute; reflexivity|].
  split; [split; [discriminate|reflexivity]|]. split; [intros (_ & H); discriminate|].
  split; [split; [reflexivity|split; [repeat constructor; discriminate|reflexivity]]|]. split; vm_compute; reflexivity.
Qed.

(** C39.  Full statement: the .bin file of a sequence with clauses is the
    concatenation of the encodings of the members of its struct in the order of
    declaration.  It is that of the last clause of the sequence only, and in
    the order of the clause.  Missing for C39: the other members, and clauses
    that skip or reorder components. *)
Theorem C39_clause_image_partial : forall names fuel input fs fs' e m n c l k w,
  Forall (fun m => grammatical m = true) input -> run fuel (GenerateBinary names (Some e)) input fs = (fs', Ok tt) -> In m input ->
  In (DSequence n c l) (mod_defs m) -> last_clause l k w ->
  exists s b, folder_get fs' (lowerize (c_name n) ++ ".bin") = Some s /\ byte_string s b
    /\ clause_image (definitions input) (mod_defs m) e (m_type k) w b.
Proof. exact binary_written. Qed.
Print Assumptions C39_clause_image_partial.

(** For a clause that names every member once and in order it is the image of
    the struct of the member the clause belongs to. *)
Theorem C39_struct_image_partial : forall names fuel input fs fs' e m n c l k w,
  Forall (fun m => grammatical m = true) input -> run fuel (GenerateBinary names (Some e)) input fs = (fs', Ok tt) -> In m input ->
  In (DSequence n c l) (mod_defs m) -> last_clause l k w -> complete_in_order (mod_defs m) (m_type k) w ->
  exists s b, folder_get fs' (lowerize (c_name n) ++ ".bin") = Some s /\ byte_string s b
    /\ struct_image (definitions input) (mod_defs m) e (m_type k) w b.
Proof. exact binary_written_struct. Qed.
Print Assumptions C39_struct_image_partial.

Example C39_sample : exists fs',
  run 9 (GenerateBinary ["m"] (Some LittleEndian)) [image_module] [] = (fs', Ok tt)
  /\ folder_get fs' "cmd.bin" = Some (string_of_bytes [7; 254; 255; 205; 204; 204; 61; 0; 0; 0; 0; 0; 0; 8; 64])
  /\ last_clause [mkmember "h" (TName "Header") None (Some in_order)] (mkmember "h" (TName "Header") None (Some in_order)) in_order
  /\ complete_in_order (mod_defs image_module) (TName "Header") in_order.
Proof.
  eexists. split; [vm_compute; reflexivity|]. split; [vm_compute; reflexivity|].
  split; [exists [], []; repeat split; intros y []|].
  eapply complete; [reflexivity|left; reflexivity|reflexivity| |].
  - repeat constructor; simpl; intuition discriminate.
  - intros k w kc x H. simpl in H. repeat (destruct H as [H|H]; [discriminate|]). destruct H.
Qed.

(** Three ways to get another image: the clause has another order, the clause
    skips a member, the sequence has members besides the clause. *)
Definition pair_type : definition :=
  DSequence "Pair" None [mkmember "a" (TName "Uint8-t") None None; mkmember "b" (TName "Uint8-t") None None].
Definition reversed : wcomps := WC None [WI "b" (VInt 2) None; WI "a" (VInt 1) None].
Definition straight : wcomps := WC None [WI "a" (VInt 1) None; WI "b" (VInt 2) None].
Definition skipping : wcomps := WC None [WI "b" (VInt 2) None].
Definition pair_module (k : list member) : module :=
  mkmodule "m" None [] None [pair_type; DSimple "Uint8-t" (TInteger (Some (0, 255))) None; DSequence "Cmd" None k].
Definition pair_member (key : string) (w : wcomps) : member := mkmember key (TName "Pair") None (Some w).

Lemma pair_leaf : forall k, leaf_size (definitions [pair_module k]) (TName "Uint8-t") 8.
Proof.
  intros k. eapply leaf_simple; [right; left; reflexivity|].
  apply size_unsigned; [discriminate|]. split; [discriminate|]. split; [reflexivity|]. intros v V0 V.
  destruct (Z.le_gt_cases 8 v) as [L|L]; [exact L|]. exfalso. assert (P : 2 ^ v <= 2 ^ 7) by (apply Z.pow_le_mono_r; lia). simpl in P. lia.
Qed.

Lemma pair_byte : forall k, encoded_as (definitions [pair_module k]) (TName "Uint8-t") (EInt false 8).
Proof. intros k. eapply enc_posix; [reflexivity|left; reflexivity|left; apply pair_leaf|left; reflexivity]. Qed.

Lemma pair_straight : forall k, struct_image (definitions [pair_module k]) (mod_defs (pair_module k)) BigEndian (TName "Pair") straight [1; 2].
Proof.
  intros k. assert (I : forall z, 0 <= z < 256 -> image BigEndian (EInt false 8) (VInt z) [z]).
  { intros z Hz. exists z. split; [reflexivity|]. split; [exact Hz|]. split; [reflexivity|]. split; [repeat constructor; apply Hz|].
    unfold number_of. cbn. apply Z.add_0_r. }
  eapply struct_im; [reflexivity|left; reflexivity|]. change [1; 2] with ([1] ++ [2] ++ [])%list.
  apply (members_leaf _ _ _ (mkmember "a" (TName "Uint8-t") None None) _ (VInt 1) None _ (EInt false 8));
    [discriminate|apply pair_byte|apply I; split; [discriminate|reflexivity]|].
  apply (members_leaf _ _ _ (mkmember "b" (TName "Uint8-t") None None) _ (VInt 2) None _ (EInt false 8));
    [discriminate|apply pair_byte|apply I; split; [discriminate|reflexivity]|]. constructor.
Qed.

Theorem C39_struct_image_refuted : exists k w w' fs' s,
  k = [pair_member "p" w] /\ Permutation (wc_items w) (wc_items w')
  /\ Forall (fun m => grammatical m = true) [pair_module k]
  /\ run 9 (GenerateBinary ["m"] (Some BigEndian)) [pair_module k] [] = (fs', Ok tt)
  /\ folder_get fs' "cmd.bin" = Some s
  /\ struct_image (definitions [pair_module k]) (mod_defs (pair_module k)) BigEndian (TName "Pair") w' [1; 2]
  /\ ~ byte_string s [1; 2].
Proof.
  do 2 eexists. exists straight. do 2 eexists. split; [reflexivity|].
  split; [apply (perm_swap _ _ _ : Permutation (wc_items reversed) (wc_items straight))|].
  split; [repeat constructor; vm_compute; reflexivity|]. split; [vm_compute; reflexivity|]. split; [vm_compute; reflexivity|].
  split; [apply pair_straight|]. intros (_ & H). vm_compute in H. discriminate.
Qed.
Print Assumptions C39_struct_image_refuted.

Theorem C39_partial_clause_refuted : exists k fs' s,
  k = [pair_member "p" skipping]
  /\ Forall (fun m => grammatical m = true) [pair_module k]
  /\ run 9 (GenerateBinary ["m"] (Some BigEndian)) [pair_module k] [] = (fs', Ok tt)
  /\ folder_get fs' "cmd.bin" = Some s /\ byte_string s [2]
  /\ exists ls, leaves (definitions [pair_module k]) [mkmember "a" (TName "Uint8-t") None None; mkmember "b" (TName "Uint8-t") None None] ls
       /\ total ls = 16.
Proof.
  do 3 eexists. split; [reflexivity|].
  split; [repeat constructor; vm_compute; reflexivity|]. split; [vm_compute; reflexivity|]. split; [vm_compute; reflexivity|].
  split; [split; [repeat constructor; discriminate|vm_compute; reflexivity]|].
  assert (L := pair_leaf [pair_member "p" skipping]).
  eexists. split; [apply leaves_leaf; [exact L|]; apply leaves_leaf; [exact L|]; constructor|reflexivity].
Qed.
Print Assumptions C39_partial_clause_refuted.

(** C40.  Full statement: every clause contributes its bytes to some written
    .bin file.  Of several clauses in one sequence only the last is written: *)
Theorem C40_clauses_written_refuted : exists k fs',
  k = [pair_member "p" straight; pair_member "q" (WC None [WI "a" (VInt 3) None; WI "b" (VInt 4) None])]
  /\ Forall (fun m => grammatical m = true) [pair_module k]
  /\ run 9 (GenerateBinary ["m"] (Some BigEndian)) [pair_module k] [] = (fs', Ok tt)
  /\ map fst fs' = ["m.h"; "cmd.bin"]
  /\ exists s, folder_get fs' "cmd.bin" = Some s /\ byte_string s [3; 4].
Proof.
  do 2 eexists. split; [reflexivity|]. split; [repeat constructor; vm_compute; reflexivity|].
  split; [vm_compute; reflexivity|]. split; [vm_compute; reflexivity|].
  eexists. split; [vm_compute; reflexivity|]. split; [repeat constructor; discriminate|vm_compute; reflexivity].
Qed.
Print Assumptions C40_clauses_written_refuted.

(** and none of those in a CHOICE. *)
Definition choice_module : module :=
  mkmodule "m" None [] None
    [pair_type; DSimple "Uint8-t" (TInteger (Some (0, 255))) None; DChoice "Cmd" None [pair_member "p" straight]].
Theorem C40_choice_refuted : exists fs',
  Forall (fun m => grammatical m = true) [choice_module]
  /\ run 9 (GenerateBinary ["m"] (Some BigEndian)) [choice_module] [] = (fs', Ok tt)
  /\ map fst fs' = ["m.h"].
Proof. eexists. split; [repeat constructor; vm_compute; reflexivity|]. split; vm_compute; reflexivity. Qed.
Print Assumptions C40_choice_refuted.

(** What holds: a clause is written if it is the only one of its sequence.
    Missing for C40: the cases above. *)
Theorem C40_only_clause_partial : forall names fuel input fs fs' e m n c a k b w,
  Forall (fun m => grammatical m = true) input -> run fuel (GenerateBinary names (Some e)) input fs = (fs', Ok tt) -> In m input ->
  In (DSequence n c (a ++ k :: b)%list) (mod_defs m) -> m_with k = Some w ->
  (forall x, In x (a ++ b)%list -> m_with x = None) ->
  exists name s bytes, folder_get fs' name = Some s /\ byte_string s bytes
    /\ clause_image (definitions input) (mod_defs m) e (m_type k) w bytes.
Proof. exact only_clause_written. Qed.
Print Assumptions C40_only_clause_partial.

Example C40_sample : exists fs' a k b w,
  run 9 (GenerateBinary ["m"] (Some LittleEndian)) [image_module] [] = (fs', Ok tt)
  /\ In (DSequence "Cmd" None (a ++ k :: b)%list) (mod_defs image_module) /\ m_with k = Some w
  /\ forall x, In x (a ++ b)%list -> m_with x = None.
Proof.
  eexists. exists [], (mkmember "h" (TName "Header") None (Some in_order)), [], in_order.
  split; [vm_compute; reflexivity|]. split; [do 2 right; left; reflexivity|]. split; [reflexivity|]. intros x [].
Qed.
