(** * Property C77: an initialised C object and its binary image *)
From Coq Require Import QArith Qabs Permutation Lqa.
From Coq Require Import Lia.
From Verif Require Import Base PyNum PyStr PyFloat Ast Bundle CCommon GenC GenBinary Main Spec_Grammar Spec_Check Spec_Num Spec_Enum Spec_Size Spec_Layout Spec_Bundle Spec_Gen Spec_Text
  Spec_C Spec_Header Spec_Valid Spec_Ieee Spec_Floats Spec_Init Spec_Binary Spec_Object Str_proofs Object_proofs.
Open Scope string_scope.
Open Scope list_scope.

(** C77.  Full statement: the variable that command c initialises for a clause,
    and the .bin file that command binary writes for it, are the same bytes on
    a machine with the byte order asked for.  The C side is read from the
    generated files alone: the text of the variable from the .c file and the
    structs from the headers ([variable_image], Spec_Object).  The theorem has it for a
    SEQUENCE whose only member has a clause that names every member once and in
    order, with numbers that are as wide in C as in binary images and with
    values that C rounds the same way ([same_clause]).  Missing for C77: other
    clauses, see below. *)
Theorem C77_same_image_partial : forall names names' fuel fuel' input fs1 fs1' fs2 fs2' e m n c k w,
  Forall (fun m => grammatical m = true) input -> Forall quiet input ->
  run fuel (GenerateC names) input fs1 = (fs1', Ok tt) ->
  run fuel' (GenerateBinary names' (Some e)) input fs2 = (fs2', Ok tt) ->
  In m input -> In (DSequence n c [k]) (mod_defs m) -> m_with k = Some w ->
  complete_in_order (mod_defs m) (m_type k) w -> same_clause (definitions input) (m_type k) w ->
  exists pre text post bin b,
    folder_get fs1' (c_name (mod_name m) ++ ".c") = Some (pre ++ text ++ post)%string
    /\ variable_image (packed_struct (GenerateC names) fs1' input) e text b
    /\ folder_get fs2' (lowerize (c_name n) ++ ".bin") = Some bin /\ byte_string bin b.
Proof. exact same_bytes. Qed.
Print Assumptions C77_same_image_partial.

(** A clause with two depths and every kind of number. *)
Definition f_low : pyfloat := mkfloat (DFin true 4503599627370496 (-52)) "-1.0".
Definition f_high : pyfloat := mkfloat (DFin false 4503599627370496 (-52)) "1.0".
Definition f_large : pyfloat := mkfloat (DFin false 8271806125530277 80) "1e+40".
Definition f_tenth : pyfloat := mkfloat (DFin false 7205759403792794 (-56)) "0.1".
Definition full_clause : wcomps :=
  WC None
    [WI "a" (VInt 7) None; WI "r" (VFloat f_tenth) None; WI "d" (VInt 3) None;
     WI "i" (VWith (WC None [WI "s" (VInt (-2)) None; WI "p" (VInt 258) None])) None; WI "z" (VBool true) None].
Definition full_module : module :=
  mkmodule "m" None [] None
    [DSimple "Uint16-t" (TInteger (Some (0, 65535)%Z)) None; DSimple "Int8-t" (TInteger (Some (-128, 127)%Z)) None;
     DSequence "Inner" None
       [mkmember "s" (TInteger (Some (-100000, 100000)%Z)) None None; mkmember "p" (TName "Uint16-t") None None];
     DSequence "Header" None
       [mkmember "a" (TInteger (Some (0, 255)%Z)) None None; mkmember "r" (TReal (Some (f_low, f_high))) None None;
        mkmember "d" (TReal (Some (f_low, f_large))) None None; mkmember "i" (TName "Inner") None None;
        mkmember "z" (TName "Int8-t") None None];
     DSequence "Cmd" None [mkmember "h" (TName "Header") None (Some full_clause)]].

Example C77_sample : exists fs1' fs2',
  Forall (fun m => grammatical m = true) [full_module] /\ Forall quiet [full_module]
  /\ run 9 (GenerateC ["m"]) [full_module] [] = (fs1', Ok tt)
  /\ run 9 (GenerateBinary ["m"] (Some LittleEndian)) [full_module] [] = (fs2', Ok tt)
  /\ folder_get fs2' "cmd.bin"
     = Some (string_of_bytes [7; 205; 204; 204; 61; 0; 0; 0; 0; 0; 0; 8; 64; 254; 255; 255; 255; 2; 1; 1]%Z)
  /\ complete_in_order (mod_defs full_module) (TName "Header") full_clause
  /\ same_clause (definitions [full_module]) (TName "Header") full_clause.
Proof.
  do 2 eexists. split; [repeat constructor; vm_compute; reflexivity|]. split; [repeat constructor|].
  split; [vm_compute; reflexivity|]. split; [vm_compute; reflexivity|]. split; [vm_compute; reflexivity|]. split.
  - eapply complete; [reflexivity|do 3 right; left; reflexivity|reflexivity|repeat constructor; simpl; intuition discriminate|].
    intros k w kc x H Hx E. simpl in H. repeat (destruct H as [H|H]; [first [discriminate H|injection H as <- <- <-]|]); [|destruct H].
    simpl in Hx. repeat (destruct Hx as [<-|Hx]; [try discriminate E|]); [|destruct Hx].
    eapply complete; [reflexivity|do 2 right; left; reflexivity|reflexivity|repeat constructor; simpl; intuition discriminate|].
    intros k w kc x H. simpl in H. intuition discriminate.
  - econstructor; [do 3 right; left; reflexivity|simpl; intuition discriminate|].
    intros k v kc x H Hx E. simpl in H, Hx.
    destruct H as [H|[H|[H|[H|[H|[]]]]]]; injection H as <- <- <-;
      (repeat (destruct Hx as [<-|Hx]; [try discriminate E|]); [|destruct Hx]); clear E.
    + right. split; [intros X; discriminate|]. split; [reflexivity|]. intros _ z Z. injection Z as <-. discriminate.
    + right. split; [exact I|]. split; [exact I|]. discriminate.
    + right. split; [exact I|]. split; [reflexivity|]. intros _ z Z. injection Z as <-. discriminate.
    + left. eexists. split; [reflexivity|].
      econstructor; [do 2 right; left; reflexivity|simpl; intuition discriminate|].
      intros k v kc x H Hx E. simpl in H, Hx.
      destruct H as [H|[H|[]]]; injection H as <- <- <-;
        (repeat (destruct Hx as [<-|Hx]; [try discriminate E|]); [|destruct Hx]); clear E.
      * right. split.
        -- intros _. split; [simpl; tauto|]. split; [intros v Hv; simpl; lia|].
           intros w [<-|[<-|[<-|[<-|[]]]]] P; try discriminate; specialize (P 100000%Z); simpl in P; lia.
        -- split; [reflexivity|]. intros _ z Z. injection Z as <-. discriminate.
      * right. split.
        -- left. split; [simpl; tauto|]. do 2 eexists. left. reflexivity.
        -- split; [reflexivity|]. intros _ z Z. injection Z as <-. discriminate.
    + right. split.
      * left. split; [simpl; tauto|]. do 2 eexists. right. left. reflexivity.
      * split; [exact I|]. discriminate.
Qed.

(** Five ways to differ although both commands succeed: a signed INTEGER of
    less than 32 bits, which C stores as int; components in another order; a
    component left out, which C sets to zero; a further member of the SEQUENCE;
    and an integer that Python rounds to a double before it rounds to a single.
    With the bytes of the .bin file and those of the C variable, both
    little-endian. *)
Definition uint8 : definition := DSimple "Uint8-t" (TInteger (Some (0, 255)%Z)) None.
Definition cmd_module (ms : list member) (w : list witem) (more : list member) : module :=
  mkmodule "m" None [] None
    [uint8; DSequence "Pair" None ms; DSequence "Cmd" None (mkmember "p" (TName "Pair") None (Some (WC None w)) :: more)].
Definition bytes2 : list member := [mkmember "a" (TName "Uint8-t") None None; mkmember "b" (TName "Uint8-t") None None].
Definition differing : list (module * (list Z * list Z)) :=
  [(cmd_module [mkmember "a" (TInteger (Some (-1, 1)%Z)) None None] [WI "a" (VInt 1) None] [],
    ([1], [1; 0; 0; 0]));
   (cmd_module bytes2 [WI "b" (VInt 2) None; WI "a" (VInt 1) None] [],
    ([2; 1], [1; 2]));
   (cmd_module bytes2 [WI "b" (VInt 2) None] [],
    ([2], [0; 2]));
   (cmd_module bytes2 [WI "a" (VInt 1) None; WI "b" (VInt 2) None] [mkmember "x" (TName "Uint8-t") None None],
    ([1; 2], [1; 2; 0]));
   (cmd_module [mkmember "a" (TReal (Some (f_low, f_high))) None None] [WI "a" (VInt (2 ^ 60 + 2 ^ 36 + 1)) None] [],
    ([0; 0; 128; 93], [1; 0; 128; 93]))]%Z.

Lemma designated_in : forall ts t, designated ts t -> In t ts.
Proof. intros ts t (a & b & -> & _). apply in_or_app. right. left. reflexivity. Qed.

Lemma byte_of : forall e s b z, scalar_image e ["uint8_t"] s b -> read_int s = Some z -> b = [z].
Proof.
  intros e s b z H R. inversion H as [ct sgn w s' y b' I (C & _) F IM| | | |]; subst.
  rewrite R in C. injection C as <-. simpl in I. repeat (destruct I as [I|I]; [first [discriminate I|injection I as <- <-]|]); [|destruct I].
  destruct IM as (L & _ & N). destruct b as [|x [|y b]]; simpl in L; try lia. f_equal. destruct e; unfold number_of in N; cbn [rev app le_number] in N; lia.
Qed.

Lemma int_length : forall e s b, scalar_image e ["int"] s b -> length b = 4%nat.
Proof.
  intros e s b H. inversion H as [ct sgn w s' y b' I (C & _) F IM| | | |]; subst.
  simpl in I. repeat (destruct I as [I|I]; [first [discriminate I|injection I as <- <-]|]); [|destruct I].
  destruct IM as (L & _ & N). lia.
Qed.

Lemma byte_type : forall n, type_bytes ["uint8_t"] n -> n = 1%nat.
Proof.
  intros n [(s & w & I & L)|[(E & _)|(E & _)]]; [|discriminate..].
  simpl in I. repeat (destruct I as [I|I]; [first [discriminate I|injection I as <- <-]|]); [|destruct I]. lia.
Qed.

Lemma fields_mono : forall (S1 S2 : string -> list xfield -> Prop) e, (forall n fs, S1 n fs -> S2 n fs) ->
  forall fs ts b, fields_image S1 e fs ts b -> fields_image S2 e fs ts b.
Proof.
  intros S1 S2 e H fs ts b F. induction F; [constructor|eapply scalar_field|eapply Spec_Object.struct_field|eapply zero_scalar|eapply zero_struct]; eauto.
Qed.

(** Reading the header of one of these modules. *)
Definition two (pf cf : list xfield) (n : string) (fs : list xfield) : Prop := n = "Pair" /\ fs = pf \/ n = "Cmd" /\ fs = cf.
Lemma reading : forall m fs' text h pf cf e body b,
  folder_get fs' (header_name (GenerateC ["m"]) (mod_name m)) = Some text -> read_header text = Some h ->
  h_decls h = [XStruct true "Pair" pf; XStruct true "Cmd" cf; XVar "Cmd" "cmd"] ->
  (variable_image (packed_struct (GenerateC ["m"]) fs' [m]) e ("Cmd cmd = {" ++ NL ++ body ++ "};" ++ NL)%string b
   <-> exists trees, read_init body = Some trees /\ fields_image (two pf cf) e cf trees b).
Proof.
  intros m fs' text h pf cf e body b T R D.
  assert (P : forall n fs, packed_struct (GenerateC ["m"]) fs' [m] n fs <-> two pf cf n fs).
  { intros n fs. unfold packed_struct, two, header_of. split.
    - intros (m0 & h0 & [<-|[]] & (t & T' & R') & I). rewrite T in T'. injection T' as <-. rewrite R in R'. injection R' as <-.
      rewrite D in I. destruct I as [I|[I|[I|[]]]]; [injection I as <- <-; auto|injection I as <- <-; auto|discriminate].
    - intros H. exists m, h. split; [left; reflexivity|]. split; [exists text; auto|]. rewrite D.
      destruct H as [[-> ->]|[-> ->]]; [left|right; left]; reflexivity. }
  split.
  - intros (n & fields & body' & trees & S & E & RI & F). apply P in S.
    destruct S as [[-> ->]|[-> ->]]; [discriminate E|].
    exists trees. split; [|eapply fields_mono; [|exact F]; intros n fs; apply P].
    change ("Cmd cmd = {" ++ NL ++ body ++ "};" ++ NL = "Cmd cmd = {" ++ NL ++ body' ++ "};" ++ NL)%string in E.
    do 2 apply string_app_inv_l in E. apply string_app_inv_r in E. subst body'. exact RI.
  - intros (trees & RI & F). exists "Cmd", cf, body, trees. split; [apply P; right; auto|]. split; [reflexivity|].
    split; [exact RI|]. eapply fields_mono; [|exact F]. intros n fs. apply P.
Qed.

Definition body_of (l : list string) : string :=
  ("  .p = {" ++ NL ++ String.concat "" (map (fun s => "    ." ++ s ++ "," ++ NL) l) ++ "  }," ++ NL)%string.
Definition head : string :=
  ("/*" ++ NL ++ "This file was autogenerated from ASN.1 model." ++ NL ++ "*/" ++ NL ++ NL ++ "#include ""m.h""" ++ NL ++ NL)%string.
Definition byte_field (k : string) : xfield := mkxfield ["uint8_t"] k None None.

Lemma plain_constant : forall s z, read_int s = Some z -> (Z.abs z < 2 ^ 63)%Z ->
  match s with String "0" (String _ _) | String "-" (String "0" (String _ _)) => False | _ => True end -> integer_constant s z.
Proof.
  intros s z R L N. split; [exact R|]. split; [|exact L].
  intros sg r [-> | ->] ->; simpl in N; destruct r; try reflexivity; contradiction.
Qed.

Lemma byte_image : forall e s z, integer_constant s z -> (0 <= z < 256)%Z -> scalar_image e ["uint8_t"] s [z].
Proof.
  intros e s z C L. apply int_of_int with false 8%Z z; [simpl; tauto|exact C|exact L|].
  split; [reflexivity|]. split; [constructor; [exact L|constructor]|]. destruct e; unfold number_of; cbn [rev app le_number]; lia.
Qed.

Definition pair_field : xfield := mkxfield ["Pair"] "p" None None.

Lemma pair_first : forall pf cf e r sub b,
  fields_image (two pf cf) e (pair_field :: r) [Node "p" sub] b <->
  exists b1 b2, b = b1 ++ b2 /\ fields_image (two pf cf) e pf sub b1 /\ fields_image (two pf cf) e r [Node "p" sub] b2.
Proof.
  intros pf cf e r sub b. split.
  - intros H. inversion H as [|? ? ? ? ? ? _ _ D|? ? ? n fs sub' b1 b2 _ _ T S D F1 F2|? ? ? ? ? _ _ N|? ? ? ? ? ? ? _ _ _ _ N]; subst; clear H.
    + apply designated_in in D. destruct D as [D|[]]. discriminate.
    + apply designated_in in D. destruct D as [D|[]]. injection D as <-. injection T as <-.
      destruct S as [[_ ->]|[S _]]; [|discriminate]. exists b1, b2. auto.
    + exfalso. apply N. left. reflexivity.
    + exfalso. apply N. left. reflexivity.
  - intros (b1 & b2 & -> & F1 & F2). eapply Spec_Object.struct_field with (n := "Pair"); try reflexivity; [left; auto| |exact F1|exact F2].
    exists [], []. split; [reflexivity|intros []].
Qed.

Lemma byte_first : forall pf cf e k r ts s z b, In (Leaf k s) ts -> (forall s', In (Leaf k s') ts -> s' = s) -> read_int s = Some z ->
  fields_image (two pf cf) e (byte_field k :: r) ts b -> exists b2, b = z :: b2 /\ fields_image (two pf cf) e r ts b2.
Proof.
  intros pf cf e k r ts s z b I U R H.
  inversion H as [|? ? ? s' b1 b2 _ _ D SI F|? ? ? n fs sub' b1 b2 _ _ T S D F1 F2|? ? ? ? ? _ _ N|? ? ? ? ? ? ? _ _ _ _ N]; subst; clear H.
  - apply designated_in in D. apply U in D. subst s'. rewrite (byte_of _ _ _ _ SI R). exists b2. auto.
  - injection T as <-. destruct S as [[S _]|[S _]]; discriminate S.
  - exfalso. apply N. apply (in_map tree_key) in I. exact I.
  - exfalso. apply N. apply (in_map tree_key) in I. exact I.
Qed.

Lemma byte_zero : forall pf cf e k r ts b, ~ In k (map tree_key ts) ->
  fields_image (two pf cf) e (byte_field k :: r) ts b -> exists b2, b = 0%Z :: b2 /\ fields_image (two pf cf) e r ts b2.
Proof.
  intros pf cf e k r ts b I H.
  inversion H as [|? ? ? s' b1 b2 _ _ D SI F|? ? ? n fs sub' b1 b2 _ _ T S D F1 F2|? ? ? n b2 _ _ N T F|? ? ? ? ? ? ? _ _ T S N]; subst; clear H.
  - exfalso. apply I. apply designated_in in D. apply (in_map tree_key) in D. exact D.
  - exfalso. apply I. apply designated_in in D. apply (in_map tree_key) in D. exact D.
  - apply byte_type in T. subst n. exists b2. auto.
  - injection T as <-. destruct S as [[S _]|[S _]]; discriminate S.
Qed.

(** Integers as singles: 2^60 + 2^37 is nearer to the number than 2^60. *)
Lemma not_twice_rounded : ~ nearest single_of (inject_Z (2 ^ 60 + 2 ^ 36 + 1)) false 8388608 37.
Proof.
  intros N. destruct (N (93 * 2 ^ 24 + 128 * 2 ^ 16 + 1)%Z false 8388609%N 37%Z eq_refl) as (L & _). vm_compute in L. apply L. reflexivity.
Qed.

Lemma once_rounded : nearest single_of (inject_Z (2 ^ 60 + 2 ^ 36 + 1)) false 8388609 37.
Proof.
  eapply nearest_wd_any; [|apply (Ieee_proofs.nearest_from_round 8 23 false (2 ^ 60 + 2 ^ 36 + 1) 0); [discriminate|discriminate| |]].
  - vm_compute. reflexivity.
  - vm_compute. reflexivity.
  - vm_compute. auto.
Qed.

Ltac prepare l :=
  do 2 eexists; exists head, ("Cmd cmd = {" ++ NL ++ body_of l ++ "};" ++ NL)%string; eexists;
  split; [reflexivity|]; split; [repeat constructor|];
  split; [vm_compute; reflexivity|]; split; [vm_compute; reflexivity|]; split; [vm_compute; reflexivity|];
  split; [vm_compute; reflexivity|]; split; [split; [repeat constructor; discriminate|vm_compute; reflexivity]|];
  match goal with |- ?A /\ ~ ?B =>
    let X := fresh in let Y := fresh in
    assert (X : A); [|assert (Y : ~ B); [clear X|split; [exact X|exact Y]]] end.
Ltac get := 
  match goal with
  | |- variable_image _ _ _ _ => eapply reading; [vm_compute; reflexivity|vm_compute; reflexivity|vm_compute; reflexivity|]; eexists; split; [vm_compute; reflexivity|]
  | |- ~ variable_image _ _ _ _ => let H := fresh in let R := fresh in intros H; eapply reading in H; [|vm_compute; reflexivity|vm_compute; reflexivity|vm_compute; reflexivity];
     destruct H as (? & R & H); vm_compute in R; injection R as <-
  end.

Theorem C77_same_image_refuted : forall m bin obj, In (m, (bin, obj)) differing ->
  exists fs1' fs2' pre text s, grammatical m = true /\ quiet m
    /\ run 9 (GenerateC ["m"]) [m] [] = (fs1', Ok tt)
    /\ run 9 (GenerateBinary ["m"] (Some LittleEndian)) [m] [] = (fs2', Ok tt)
    /\ folder_get fs1' "m.c" = Some (pre ++ text)%string
    /\ folder_get fs2' "cmd.bin" = Some s /\ byte_string s bin
    /\ variable_image (packed_struct (GenerateC ["m"]) fs1' [m]) LittleEndian text obj
    /\ ~ variable_image (packed_struct (GenerateC ["m"]) fs1' [m]) LittleEndian text bin.
Proof.
  intros m bin obj H. unfold differing in H.
  destruct H as [H|[H|[H|[H|[H|[]]]]]]; injection H as <- <- <-.
  - prepare ["a = 1"]; get.
    + apply pair_first. exists [1; 0; 0; 0]%Z, []. split; [reflexivity|]. split; [|constructor].
      apply (scalar_field _ _ _ [] _ "1" [1; 0; 0; 0]%Z []); try reflexivity; [exists [], []; split; [reflexivity|intros []]| |constructor].
      apply int_of_int with true 32%Z 1%Z; [simpl; tauto|apply plain_constant; simpl; auto; lia|simpl; lia|].
      split; [reflexivity|]. split; [repeat constructor; discriminate|reflexivity].
    + apply pair_first in H. destruct H as (b1 & b2 & E & F1 & F2). inversion F2; subst. rewrite app_nil_r in E. subst b1.
      inversion F1 as [|? ? ? s' b1 b3 _ _ D SI F|? ? ? n fs sub' b1 b3 _ _ T S D F3 F4|? ? ? n b3 _ _ N T F|? ? ? ? ? ? ? _ _ T S N]; subst; clear F1.
      * apply int_length in SI. match goal with E : (_ ++ _ = [_])%list |- _ => apply (f_equal (@length Z)) in E; rewrite app_length, SI in E; discriminate E end.
      * injection T as <-. destruct S as [[S _]|[S _]]; discriminate S.
      * apply N. left. reflexivity.
      * apply N. left. reflexivity.
  - prepare ["b = 2"; "a = 1"]; get.
    + apply pair_first. exists [1; 2]%Z, []. split; [reflexivity|]. split; [|constructor].
      apply (scalar_field _ _ _ [byte_field "b"] _ "1" [1]%Z [2]%Z); try reflexivity; [eexists [_], []; split; [reflexivity|intros []]| |].
      { apply byte_image; [apply plain_constant; simpl; auto; lia|lia]. }
      apply (scalar_field _ _ _ [] _ "2" [2]%Z []); try reflexivity; [exists [], [Leaf "a" "1"]; split; [reflexivity|intros [X|[]]; discriminate X]| |constructor].
      apply byte_image; [apply plain_constant; simpl; auto; lia|lia].
    + apply pair_first in H. destruct H as (b1 & b2 & E & F1 & F2). inversion F2; subst. rewrite app_nil_r in E. subst b1.
      apply (byte_first _ _ _ "a" _ _ "1" 1%Z) in F1; [|right; left; reflexivity|intros s' [X|[X|[]]]; [discriminate|injection X; auto]|reflexivity].
      destruct F1 as (b2 & E & _). discriminate.
  - prepare ["b = 2"]; get.
    + apply pair_first. exists [0; 2]%Z, []. split; [reflexivity|]. split; [|constructor].
      apply (zero_scalar _ _ _ [byte_field "b"] _ 1 [2]%Z); try reflexivity; [intros [X|[]]; discriminate X|left; exists false, 8%Z; split; [simpl; tauto|reflexivity]|].
      apply (scalar_field _ _ _ [] _ "2" [2]%Z []); try reflexivity; [exists [], []; split; [reflexivity|intros []]| |constructor].
      apply byte_image; [apply plain_constant; simpl; auto; lia|lia].
    + apply pair_first in H. destruct H as (b1 & b2 & E & F1 & F2). inversion F2; subst. rewrite app_nil_r in E. subst b1.
      apply (byte_zero _ _ _ "a") in F1; [|intros [X|[]]; discriminate X]. destruct F1 as (b2 & E & _). discriminate.
  - prepare ["a = 1"; "b = 2"]; get.
    + apply (pair_first _ _ _ [byte_field "x"]). exists [1; 2]%Z, [0]%Z. split; [reflexivity|]. split.
      * apply (scalar_field _ _ _ [byte_field "b"] _ "1" [1]%Z [2]%Z); try reflexivity; [exists [], [Leaf "b" "2"]; split; [reflexivity|intros [X|[]]; discriminate X]| |].
        { apply byte_image; [apply plain_constant; simpl; auto; lia|lia]. }
        apply (scalar_field _ _ _ [] _ "2" [2]%Z []); try reflexivity; [eexists [_], []; split; [reflexivity|intros []]| |constructor].
        apply byte_image; [apply plain_constant; simpl; auto; lia|lia].
      * apply (zero_scalar _ _ _ [] _ 1 []); try reflexivity; [intros [X|[]]; discriminate X|left; exists false, 8%Z; split; [simpl; tauto|reflexivity]|constructor].
    + apply (pair_first _ _ _ [byte_field "x"]) in H. destruct H as (b1 & b2 & E & F1 & F2).
      apply (byte_first _ _ _ "a" _ _ "1" 1%Z) in F1; [|left; reflexivity|intros s' [X|[X|[]]]; [injection X; auto|discriminate]|reflexivity].
      destruct F1 as (b3 & -> & F1).
      apply (byte_first _ _ _ "b" _ _ "2" 2%Z) in F1; [|right; left; reflexivity|intros s' [X|[X|[]]]; [discriminate|injection X; auto]|reflexivity].
      destruct F1 as (b4 & -> & F1). inversion F1; subst.
      apply (byte_zero _ _ _ "x") in F2; [|intros [X|[]]; discriminate X]. destruct F2 as (b5 & -> & _). discriminate.
  - prepare ["a = 1152921573326323713"]; get.
    + apply pair_first. exists [1; 0; 128; 93]%Z, []. split; [reflexivity|]. split; [|constructor].
      apply (scalar_field _ _ _ [] _ "1152921573326323713" [1; 0; 128; 93]%Z []); try reflexivity; [exists [], []; split; [reflexivity|intros []]| |constructor].
      apply float_of_int with (2 ^ 60 + 2 ^ 36 + 1)%Z 8388609%N 37%Z; [apply plain_constant; [reflexivity|reflexivity|exact I]|reflexivity|repeat constructor; discriminate|vm_compute; reflexivity|].
      exact once_rounded.
    + apply pair_first in H. destruct H as (b1 & b2 & E & F1 & F2). inversion F2; subst. rewrite app_nil_r in E. subst b1.
      inversion F1 as [|? ? ? s' b1 b3 _ _ D SI F|? ? ? n fs sub' b1 b3 _ _ T S D F3 F4|? ? ? n b3 _ _ N T F|? ? ? ? ? ? ? _ _ T S N]; subst; clear F1.
      * apply designated_in in D. destruct D as [D|[]]. injection D as <-. inversion F; subst. match goal with E : (_ ++ [] = _)%list |- _ => rewrite app_nil_r in E end. subst b1.
        inversion SI as [ct sgn w s z b I (C & _) FI IM|s z b m x (C & _) _ _ V N| |s d b (_ & neg & q & TX & _) _ IM|]; subst.
        -- simpl in I. repeat (destruct I as [I|I]; [discriminate I|]). destruct I.
        -- vm_compute in C. injection C as <-. vm_compute in V. injection V as <- <-. exact (not_twice_rounded N).
        -- apply Init_proofs.float_text_chars in TX. destruct TX as [_ TX]. vm_compute in TX. discriminate.
      * injection T as <-. destruct S as [[S _]|[S _]]; discriminate S.
      * apply N. left. reflexivity.
      * apply N. left. reflexivity.
Qed.
Print Assumptions C77_same_image_refuted.
