(** * Property C97: binary images are the packets COSMOS expects *)
From Coq Require Import Lia.
From Verif Require Import Base PyNum PyStr Ast Size Bundle CCommon GenBinary GenCosmos Main Spec_Enum Spec_Grammar Spec_Num Spec_Check
  Spec_Bundle Spec_Size Spec_Text Spec_Binary Spec_Cosmos Cosmos_text_proofs Enum_proofs Spec_Telemetry Spec_Sent Sent_proofs.
Open Scope string_scope.
Open Scope list_scope.

(** C97.  Both commands are run on the same modules.  If the first member of a
    message has a clause that names all its members in order, and no other
    member has one, then the bytes of the .bin file are, item by item, the
    values that the COSMOS file gives as identifications for the items of this
    member: COSMOS takes the image for the beginning of a packet of the
    message, and for the whole packet if there are no other members.  Missing:
    other clauses (C39), values and types that COSMOS does not read as the
    image says ([plain_leaf], see the refutation), several clauses on a path
    (C42) and comments that cannot be read back (C69). *)
Theorem C97_packet_partial : forall names fuel fuel' e mn msgs target input fs out fs' out',
  Forall (fun m => grammatical m = true) input -> word target ->
  (forall n c l, In (DSequence n c l) (definitions input) -> ~ In n NUMBER_NAMES) ->
  run fuel (GenerateBinary names (Some e)) input fs = (out, Ok tt) ->
  run fuel' (GenerateCosmos mn msgs target) input fs' = (out', Ok tt) -> folder_get fs' (target ++ ".txt") = None ->
  exists ms, Forall2 same_module input ms
    /\ forall i m, first_named ms i m -> mod_name m = mn -> one_clause_each ms i m msgs -> quiet_messages ms i m msgs ->
       exists text ps, folder_get out' (target ++ ".txt") = Some text /\ read_telemetry text = Some ps
         /\ Forall2 (fun n p => p_name p = n
              /\ forall cm k r w ls, In (DSequence n cm (k :: r)) (mod_defs m) -> m_with k = Some w -> (forall y, In y r -> m_with y = None) ->
                 complete_in_order (mod_defs m) (m_type k) w -> packet_leaves ms i [] [k] ls -> Forall (plain_leaf e) ls ->
                 exists s b its rest, folder_get out (lowerize (c_name n) ++ ".bin") = Some s /\ byte_string s b
                   /\ p_items p = its ++ rest /\ packet_bytes its b /\ (r = [] -> rest = [])) msgs ps.
Proof. exact runs_sent. Qed.
Print Assumptions C97_packet_partial.

(** A message with every kind of number, at two depths, and a further member. *)
Definition f_low : pyfloat := mkfloat (DFin true 4503599627370496 (-52)) "-1.0".
Definition f_high : pyfloat := mkfloat (DFin false 4503599627370496 (-52)) "1.0".
Definition f_large : pyfloat := mkfloat (DFin false 8271806125530277 80) "1e+40".
Definition f_tenth : pyfloat := mkfloat (DFin false 7205759403792794 (-56)) "0.1".
Definition apid_key : string := "application-process-identifier".
Definition sent_clause : wcomps :=
  WC None
    [WI "a" (VInt 7) None; WI "r" (VFloat f_tenth) None; WI "d" (VInt 3) None;
     WI "i" (VWith (WC None [WI "s" (VInt (-2)) None; WI apid_key (VInt 258) None])) None; WI "z" (VInt (-1)) None].
Definition inner_members : list member :=
  [mkmember "s" (TInteger (Some (-100000, 100000)%Z)) None None; mkmember apid_key (TName "Uint16-t") None None].
Definition i_member : member := mkmember "i" (TName "Inner") None None.
Definition header_members : list member :=
  [mkmember "a" (TInteger (Some (0, 255)%Z)) None None; mkmember "r" (TReal (Some (f_low, f_high))) None None;
   mkmember "d" (TReal (Some (f_low, f_large))) None None; i_member; mkmember "z" (TName "Int8-t") None None].
Definition h_member : member := mkmember "h" (TName "Header") None (Some sent_clause).
Definition x_member : member := mkmember "x" (TInteger (Some (0, 7)%Z)) None None.
Definition sent_module : module :=
  mkmodule "m" None [] None
    [DSimple "Uint16-t" (TInteger (Some (0, 65535)%Z)) None; DSimple "Int8-t" (TInteger (Some (-128, 127)%Z)) None;
     DSequence "Inner" None inner_members; DSequence "Header" None header_members;
     DSequence "Cmd" None [h_member; x_member]].
Definition sent_leaves : list leaf :=
  [mkleaf [h_member] (mkmember "a" (TInteger (Some (0, 255)%Z)) None None) (TInteger (Some (0, 255)%Z)) A_UINT 8 [];
   mkleaf [h_member] (mkmember "r" (TReal (Some (f_low, f_high))) None None) (TReal (Some (f_low, f_high))) A_FLOAT 32 [];
   mkleaf [h_member] (mkmember "d" (TReal (Some (f_low, f_large))) None None) (TReal (Some (f_low, f_large))) A_DOUBLE 64 [];
   mkleaf [h_member; i_member] (mkmember "s" (TInteger (Some (-100000, 100000)%Z)) None None) (TInteger (Some (-100000, 100000)%Z)) A_INT 32 [];
   mkleaf [h_member; i_member] (mkmember apid_key (TName "Uint16-t") None None) (TInteger (Some (0, 65535)%Z)) A_UINT 16 [];
   mkleaf [h_member] (mkmember "z" (TName "Int8-t") None None) (TInteger (Some (-128, 127)%Z)) A_INT 8 []].
Definition x_leaf : leaf := mkleaf [] x_member (TInteger (Some (0, 7)%Z)) A_UINT 3 [].

Lemma sent_visible : forall d, In d (mod_defs sent_module) -> visible [sent_module] 0 d.
Proof. intros d H. exists 0%nat, sent_module. split; [apply reach_here|]. split; [reflexivity|exact H]. Qed.
Ltac in_list := cbn [mod_defs sent_module In]; solve [repeat (first [left; reflexivity|right])].
Ltac plain_number := apply item_number; [reflexivity|discriminate|].
Lemma sent_members : packet_leaves [sent_module] 0 [h_member] header_members sent_leaves.
Proof.
  apply pl_leaf; [plain_number; apply written_unsigned; [lia|exact (bit_length_least 255 ltac:(lia))]|].
  apply pl_leaf; [plain_number; apply written_single; vm_compute; intuition discriminate|].
  apply pl_leaf; [plain_number; apply written_double; vm_compute; intuition congruence|].
  eapply (pl_nested _ _ _ _ "Inner" _ _ _ [_; _] [_]); [reflexivity|apply sent_visible; in_list| |].
  - apply pl_leaf; [plain_number; apply written_signed; [lia|]|].
    + split; [simpl; tauto|]. split; [intros v Hv; simpl; lia|].
      intros w [<-|[<-|[<-|[<-|[]]]]] P; try discriminate; specialize (P 100000%Z); simpl in P; lia.
    + apply pl_leaf; [|constructor]. eapply item_simple; [reflexivity|apply sent_visible; in_list|].
      apply written_unsigned; [lia|exact (bit_length_least 65535 ltac:(lia))].
  - apply pl_leaf; [|constructor]. eapply item_simple; [reflexivity|apply sent_visible; in_list|].
    apply written_signed; [lia|]. split; [simpl; tauto|]. split; [intros v Hv; simpl; lia|].
    intros w [<-|[<-|[<-|[<-|[]]]]] P; discriminate.
Qed.
Lemma sent_header : packet_leaves [sent_module] 0 [] [h_member] sent_leaves.
Proof.
  change sent_leaves with (sent_leaves ++ []).
  eapply (pl_nested _ _ _ _ "Header"); [reflexivity|apply sent_visible; in_list|exact sent_members|constructor].
Qed.
Lemma sent_packet : packet_leaves [sent_module] 0 [] [h_member; x_member] (sent_leaves ++ [x_leaf]).
Proof.
  eapply (pl_nested _ _ _ _ "Header"); [reflexivity|apply sent_visible; in_list|exact sent_members|].
  apply pl_leaf; [plain_number; apply written_unsigned; [lia|exact (bit_length_least 7 ltac:(lia))]|constructor].
Qed.
Lemma sent_built : exists bun, build_from_cosmos_config [sent_module] = Ok bun /\ all_modules bun = [sent_module].
Proof. eexists. split; vm_compute; reflexivity. Qed.
Lemma sent_first : first_named [sent_module] 0 sent_module.
Proof. split; [reflexivity|]. intros j m' L. lia. Qed.
Lemma no_clause_within : forall lf, In lf (sent_leaves ++ [x_leaf]) -> one_clause lf.
Proof.
  intros lf H. assert (W : forall w, ~ In (VWith w) (fixed_values lf)).
  { intros w. repeat (destruct H as [<-|H]; [intros X; vm_compute in X; intuition discriminate|]). destruct H. }
  split; [|exact W]. intros p q E.
  assert (Q : lf_path lf = [] \/ lf_path lf = [h_member] \/ lf_path lf = [h_member; i_member]).
  { repeat (destruct H as [<-|H]; [cbn [lf_path]; tauto|]). destruct H. }
  assert (P : p = [] \/ p = [h_member] \/ p = [h_member; i_member]).
  { destruct p as [|a [|b p]]; [left; reflexivity| |]; destruct Q as [Q|[Q|Q]]; rewrite Q in E; try discriminate E.
    - injection E as <- _. tauto.
    - injection E as <- _. tauto.
    - destruct p; [|discriminate E]. injection E as <- <- _. tauto. }
  destruct P as [->|[->| ->]]; (split; [vm_compute; lia|]); vm_compute; repeat constructor; simpl; intuition discriminate.
Qed.
Lemma sent_quiet : one_clause_each [sent_module] 0 sent_module ["Cmd"] /\ quiet_messages [sent_module] 0 sent_module ["Cmd"].
Proof.
  assert (L : forall n cm l ls, In n ["Cmd"] -> In (DSequence n cm l) (mod_defs sent_module) ->
    packet_leaves [sent_module] 0 [] l ls -> cm = None /\ ls = sent_leaves ++ [x_leaf]).
  { intros n cm l ls [<-|[]] Hd P. destruct sent_built as (bun & B & A).
    cbn [mod_defs sent_module In] in Hd. destruct Hd as [Hd|[Hd|[Hd|[Hd|[Hd|[]]]]]]; try discriminate. injection Hd as <- <-.
    split; [reflexivity|]. rewrite <- A in P. eapply leaves_unique; [right; exact B|exact P|]. rewrite A. exact sent_packet. }
  split; intros n cm l ls Hn Hd P; destruct (L n cm l ls Hn Hd P) as (-> & ->).
  - apply Forall_forall. exact no_clause_within.
  - split; [split; intros X; vm_compute in X; intuition discriminate|].
    repeat (apply Forall_cons; [split; intros X; vm_compute in X; intuition discriminate|]). constructor.
Qed.
Lemma sent_complete : complete_in_order (mod_defs sent_module) (TName "Header") sent_clause.
Proof.
  eapply (complete _ _ "Header"); [reflexivity|in_list|reflexivity|repeat constructor; simpl; intuition discriminate|].
  intros k w kc x [H|[H|[H|[H|[H|[]]]]]] Hx E; try discriminate. injection H as <- <- <-.
  destruct Hx as [<-|[<-|[<-|[<-|[<-|[]]]]]]; try discriminate.
  eapply (complete _ _ "Inner"); [reflexivity|in_list|reflexivity|repeat constructor; simpl; intuition discriminate|].
  intros k w kc x [H|[H|[]]]; discriminate.
Qed.
Lemma sent_plain : Forall (plain_leaf BigEndian) sent_leaves.
Proof.
  repeat apply Forall_cons; try apply Forall_nil;
    (split; [reflexivity|split; [reflexivity|split;
      [intros n E; cbn [lf_member m_type] in E; first [discriminate E|injection E as <-];
       repeat split; intros X; try reflexivity; try discriminate X; simpl in X; exfalso; intuition discriminate
      |intros v X; vm_compute in X; destruct X as [<-|[]]; vm_compute; try exact Logic.I; intros Y; try discriminate Y;
       (split; [left; reflexivity|discriminate])]]]).
Qed.

Example C97_sample : Forall (fun m => grammatical m = true) [sent_module] /\ word "out"
  /\ (forall n c l, In (DSequence n c l) (definitions [sent_module]) -> ~ In n NUMBER_NAMES)
  /\ first_named [sent_module] 0 sent_module /\ mod_name sent_module = "m"
  /\ one_clause_each [sent_module] 0 sent_module ["Cmd"] /\ quiet_messages [sent_module] 0 sent_module ["Cmd"]
  /\ In (DSequence "Cmd" None [h_member; x_member]) (mod_defs sent_module) /\ m_with h_member = Some sent_clause
  /\ complete_in_order (mod_defs sent_module) (m_type h_member) sent_clause
  /\ packet_leaves [sent_module] 0 [] [h_member] sent_leaves /\ Forall (plain_leaf BigEndian) sent_leaves
  /\ exists out out' s text ps,
     run 9 (GenerateBinary ["m"] (Some BigEndian)) [sent_module] [] = (out, Ok tt)
     /\ run 9 (GenerateCosmos "m" ["Cmd"] "out") [sent_module] [] = (out', Ok tt)
     /\ folder_get out "cmd.bin" = Some s
     /\ byte_string s [7; 61; 204; 204; 205; 64; 8; 0; 0; 0; 0; 0; 0; 255; 255; 255; 254; 1; 2; 255]%Z
     /\ folder_get out' "out.txt" = Some text /\ read_telemetry text = Some ps
     /\ map (fun p => map (fun t => (t_name t, t_bits t, t_type t, t_role t)) (p_items p)) ps
        = [[("a", 8%Z, "UINT", Id "7"); ("r", 32%Z, "FLOAT", Id "0.1"); ("d", 64%Z, "FLOAT", Id "3"); ("s", 32%Z, "INT", Id "-2");
            (apid_key, 16%Z, "UINT", Id "0x102"); ("z", 8%Z, "INT", Id "-1"); ("x", 3%Z, "UINT", Value)]].
Proof.
  split; [repeat constructor; vm_compute; reflexivity|]. split; [split; [discriminate|apply pchar_plain; reflexivity]|].
  split. { intros n c l H. cbn in H.
           repeat (destruct H as [H|H]; [try discriminate H; injection H as <- _ _; intros X; simpl in X; intuition discriminate|]).
           destruct H. }
  split; [exact sent_first|]. split; [reflexivity|]. split; [apply sent_quiet|]. split; [apply sent_quiet|].
  split; [in_list|]. split; [reflexivity|]. split; [exact sent_complete|]. split; [exact sent_header|]. split; [exact sent_plain|].
  do 5 eexists. split; [vm_compute; reflexivity|]. split; [vm_compute; reflexivity|]. split; [vm_compute; reflexivity|].
  split; [split; [repeat constructor; discriminate|vm_compute; reflexivity]|].
  split; [vm_compute; reflexivity|]. split; vm_compute; reflexivity.
Qed.

(** The members of a clause in another order: the image has as many bytes as
    the packet, but they are not its identifications. *)
Lemma packet_head : forall t r b, packet_bytes (t :: r) b -> exists b1 b2, b = b1 ++ b2 /\ item_bytes t b1 /\ packet_bytes r b2.
Proof. intros t r b H. inversion H; subst. do 2 eexists. split; [reflexivity|]. split; assumption. Qed.

Definition byte_type (t : asn_type) : definition := DSimple "Uint8-t" t None.
Definition two_bytes (w : wcomps) : module :=
  mkmodule "m" None [] None
    [byte_type (TInteger (Some (0, 255)%Z));
     DSequence "Pair" None [mkmember "a" (TName "Uint8-t") None None; mkmember "b" (TName "Uint8-t") None None];
     DSequence "Cmd" None [mkmember "p" (TName "Pair") None (Some w)]].

Theorem C97_packet_refuted : exists w out out' s b text p,
  Forall (fun m => grammatical m = true) [two_bytes w]
  /\ run 9 (GenerateBinary ["m"] (Some BigEndian)) [two_bytes w] [] = (out, Ok tt)
  /\ run 9 (GenerateCosmos "m" ["Cmd"] "out") [two_bytes w] [] = (out', Ok tt)
  /\ folder_get out "cmd.bin" = Some s /\ byte_string s b
  /\ folder_get out' "out.txt" = Some text /\ read_telemetry text = Some [p] /\ p_name p = "Cmd"
  /\ fold_right Z.add 0%Z (map t_bits (p_items p)) = (8 * Z.of_nat (length b))%Z /\ ~ packet_bytes (p_items p) b.
Proof.
  exists (WC None [WI "b" (VInt 2) None; WI "a" (VInt 1) None]). do 2 eexists. exists (String (ascii_of_nat 2) (String (ascii_of_nat 1) "")), [2; 1]%Z.
  do 2 eexists. split; [repeat constructor; vm_compute; reflexivity|]. split; [vm_compute; reflexivity|].
  split; [vm_compute; reflexivity|]. split; [vm_compute; reflexivity|].
  split; [split; [repeat constructor; discriminate|reflexivity]|]. split; [vm_compute; reflexivity|].
  split; [vm_compute; reflexivity|]. split; [reflexivity|]. split; [reflexivity|].
  intros H. cbn [p_items] in H. apply packet_head in H. destruct H as (b1 & b2 & E & (L & _ & v & R & V) & _).
  cbn [t_bits] in L. destruct b1 as [|x [|y b1]]; cbn [length] in L; try lia. injection E as <- _.
  cbn [t_role] in R. injection R as <-. vm_compute in V. discriminate.
Qed.
Print Assumptions C97_packet_refuted.

(** True is packed as 1, but COSMOS is told the value True, which is not a
    number. *)
Theorem C97_boolean_refuted : exists w out out' s b text p,
  Forall (fun m => grammatical m = true) [two_bytes w]
  /\ complete_in_order (mod_defs (two_bytes w)) (TName "Pair") w
  /\ run 9 (GenerateBinary ["m"] (Some BigEndian)) [two_bytes w] [] = (out, Ok tt)
  /\ run 9 (GenerateCosmos "m" ["Cmd"] "out") [two_bytes w] [] = (out', Ok tt)
  /\ folder_get out "cmd.bin" = Some s /\ byte_string s b
  /\ folder_get out' "out.txt" = Some text /\ read_telemetry text = Some [p] /\ p_name p = "Cmd"
  /\ fold_right Z.add 0%Z (map t_bits (p_items p)) = (8 * Z.of_nat (length b))%Z /\ ~ packet_bytes (p_items p) b.
Proof.
  exists (WC None [WI "a" (VBool true) None; WI "b" (VInt 2) None]). do 2 eexists. exists (String (ascii_of_nat 1) (String (ascii_of_nat 2) "")), [1; 2]%Z.
  do 2 eexists. split; [repeat constructor; vm_compute; reflexivity|].
  split. { eapply (complete _ _ "Pair"); [reflexivity|right; left; reflexivity|reflexivity|repeat constructor; simpl; intuition discriminate|].
           intros k w kc x [H|[H|[]]]; discriminate. }
  split; [vm_compute; reflexivity|]. split; [vm_compute; reflexivity|]. split; [vm_compute; reflexivity|].
  split; [split; [repeat constructor; discriminate|reflexivity]|]. split; [vm_compute; reflexivity|].
  split; [vm_compute; reflexivity|]. split; [reflexivity|]. split; [reflexivity|].
  intros H. cbn [p_items] in H. apply packet_head in H. destruct H as (b1 & b2 & E & (L & _ & v & R & V) & _).
  cbn [t_bits] in L. destruct b1 as [|x [|y b1]]; cbn [length] in L; try lia. injection E as <- _.
  cbn [t_role] in R. injection R as <-. vm_compute in V. discriminate.
Qed.
Print Assumptions C97_boolean_refuted.
