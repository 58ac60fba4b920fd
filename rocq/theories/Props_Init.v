(** * Properties C75, C76: sources against headers, variables in headers *)
From Coq Require Import Permutation.
From Verif Require Import Base PyNum PyStr PyFloat Ast Bundle CCommon GenC Main Spec_Grammar Spec_Check Spec_Num Spec_Bundle Spec_Gen Spec_Text Spec_C Spec_Header Spec_Valid Spec_Init
  Header3_proofs Init_proofs.
Open Scope string_scope.

(** C75.  Full statement: every initialiser in the .c files designates fields
    that the headers declare, gives constants to fields of arithmetic type and
    braces to structs ([variable_fits], Spec_Init).  It holds of a clause if
    and only if the clause, at every depth, constrains a SEQUENCE that is not
    an array, gives values to numbers only and gives none that C has no
    constant for ([member_clause_fits]).  The modules' comments must do no
    harm ([quiet], see C57).  Missing for C75: other clauses, which are
    accepted too, see below. *)
Theorem C75_initialisers_fit_partial : forall names fuel input fs fs',
  Forall (fun m => grammatical m = true) input -> run fuel (GenerateC names) input fs = (fs', Ok tt) ->
  Forall quiet input -> forall m, In m input ->
  exists order include texts, Permutation order (mod_defs m)
    /\ (include = "" \/ include = "#include """ ++ c_name (mod_name m) ++ ".h""" ++ NL ++ NL)
    /\ folder_get fs' (c_name (mod_name m) ++ ".c") = Some (source_head m ++ include ++ String.concat "" texts)
    /\ Forall2 (fun x text => initialises x text
         /\ (variable_fits (declares_struct (GenerateC names) fs' input) (declares_enum (GenerateC names) fs' input) text
             <-> member_clause_fits (definitions input) x)) (flat_map def_clauses order) texts.
Proof. exact source_fits. Qed.
Print Assumptions C75_initialisers_fit_partial.

Definition inner (k : string) (v : wval) : wcomps := WC None [WI k v None].
Definition parts : list definition :=
  [DEnumerated "Mode" None [mkenum "off" None None; mkenum "on" None None];
   DSimple "Count" (TInteger (Some (0, 9)%Z)) None; DSimple "Flag" TBoolean None;
   DSequence "Point" None
     [mkmember "x" (TInteger (Some (-9, 9)%Z)) None None; mkmember "mode" (TName "Mode") None None;
      mkmember "count" (TName "Count") None None; mkmember "flag" (TName "Flag") None None;
      mkmember "name" (TString IA5String 4) None None];
   DSequence "Box" None [mkmember "lo" (TName "Point") None None; mkmember "all" (TArray 2 (TName "Point")) None None]].
Definition with_clause (t : asn_type) (w : wcomps) : list module :=
  [mkmodule "m" None [] None (parts ++ [DSequence "Frame" None [mkmember "part" t None (Some w)]])%list].

(** A clause that fits, at two depths and for each kind of number. *)
Definition good_clause : wcomps :=
  inner "lo" (VWith (WC None [WI "x" (VInt (-3)) None; WI "mode" (VInt 1) None; WI "count" (VInt 7) None])).
Example C75_sample : exists fs',
  Forall (fun m => grammatical m = true) (with_clause (TName "Box") good_clause)
  /\ run 9 (GenerateC ["m"]) (with_clause (TName "Box") good_clause) [] = (fs', Ok tt)
  /\ Forall quiet (with_clause (TName "Box") good_clause)
  /\ member_clause_fits (definitions (with_clause (TName "Box") good_clause)) ("Frame", "part", good_clause).
Proof.
  eexists. split; [repeat constructor|]. split; [vm_compute; reflexivity|].
  split; [repeat constructor|].
  do 3 eexists. split; [do 5 right; left; reflexivity|]. split; [left; reflexivity|]. split; [reflexivity|].
  econstructor; [do 4 right; left; reflexivity|vm_compute; intuition discriminate|].
  intros k v kc [E|[]]. injection E as <- <- <-.
  eexists. split; [left; reflexivity|]. split; [reflexivity|]. left. eexists. split; [reflexivity|].
  econstructor; [do 3 right; left; reflexivity|vm_compute; intuition discriminate|].
  intros k v kc [E|[E|[E|[]]]]; injection E as <- <- <-.
  - eexists. split; [left; reflexivity|]. split; [reflexivity|]. right. split; [exact I|reflexivity].
  - eexists. split; [right; left; reflexivity|]. split; [reflexivity|]. right. split; [right; left; do 2 eexists; left; reflexivity|reflexivity].
  - eexists. split; [do 2 right; left; reflexivity|]. split; [reflexivity|]. right.
    split; [right; right; do 2 eexists; split; [right; left; reflexivity|left; eexists; reflexivity]|reflexivity].
Qed.

(** Clauses that do not fit although the command succeeds: a clause on an
    array, on a number, a value for a SEQUENCE, for a string, for a simple type
    that is BOOLEAN, and an integer and a float too large for C. *)
Definition large_float : pyfloat := mkfloat (DInf false) "inf".
Definition bad_clauses : list (asn_type * wcomps) :=
  [(TArray 3 (TName "Point"), inner "x" (VInt 1));
   (TInteger (Some (0, 7)%Z), inner "x" (VInt 1));
   (TName "Box", inner "lo" (VInt 1));
   (TName "Box", inner "all" (VWith (inner "x" (VInt 1))));
   (TName "Point", inner "name" (VInt 1));
   (TName "Point", inner "flag" (VBool true));
   (TName "Point", inner "x" (VInt 9223372036854775808));
   (TName "Point", inner "x" (VFloat large_float))].

Theorem C75_initialisers_fit_refuted : forall t w, In (t, w) bad_clauses ->
  exists m fs' include text,
    with_clause t w = [m] /\ grammatical m = true /\ quiet m
    /\ run 9 (GenerateC ["m"]) [m] [] = (fs', Ok tt)
    /\ folder_get fs' "m.c" = Some (source_head m ++ include ++ text)
    /\ initialises ("Frame", "part", w) text
    /\ ~ variable_fits (declares_struct (GenerateC ["m"]) fs' [m]) (declares_enum (GenerateC ["m"]) fs' [m]) text.
Proof.
  intros t w B. eexists.
  assert (R : exists fs', run 9 (GenerateC ["m"]) (with_clause t w) [] = (fs', Ok tt)).
  { simpl in B. repeat (destruct B as [B|B]; [injection B as <- <-; eexists; vm_compute; reflexivity|]). destruct B. }
  assert (G : Forall (fun m => grammatical m = true) (with_clause t w)).
  { simpl in B. repeat (destruct B as [B|B]; [injection B as <- <-; repeat constructor|]). destruct B. }
  assert (Q : Forall quiet (with_clause t w)) by (repeat constructor).
  destruct R as (fs' & R).
  destruct (source_fits ["m"] 9 (with_clause t w) [] fs' G R Q _ (or_introl eq_refl)) as (order & inc & texts & P & _ & E & F).
  assert (C : flat_map def_clauses order = [("Frame", "part", w)]).
  { apply Permutation_length_1_inv. apply (Permutation_flat_map def_clauses) in P. symmetry in P. exact P. }
  rewrite C in F. inversion F as [|x text l l' (I & V) F']; subst. inversion F'; subst. clear F F' C P.
  exists fs', inc, text. split; [reflexivity|]. split; [exact (Forall_inv G)|]. split; [exact (Forall_inv Q)|]. split; [exact R|].
  split; [exact E|]. split; [exact I|]. intros H. apply V in H. clear - H B.
  destruct H as (c & ms & m & I & Hm & K & CF).
  assert (X : m_type m = t).
  { simpl in I. repeat (destruct I as [I|I]; [try discriminate I|]); [|destruct I]. injection I as <- <-. destruct Hm as [<-|[]]. reflexivity. }
  rewrite X in CF. clear - CF B.
  simpl in B. repeat (destruct B as [B|B]; [injection B as <- <-|]); [..|destruct B].
  1, 2: inversion CF.
  all: inversion CF as [n c ms cm l I NP H ET EW]; subst; clear CF NP;
    simpl in I; repeat (destruct I as [I|I]; [try discriminate I|]); [|destruct I]; injection I as <- <-;
    specialize (H _ _ _ (or_introl eq_refl)); destruct H as (x & Hx & Kx & D);
    simpl in Hx; repeat (destruct Hx as [Hx|Hx]; [subst x; try discriminate Kx|]); [|destruct Hx]; clear Kx;
    destruct D as [(w & Ew & D)|(N & D)]; try discriminate Ew; try (vm_compute in D; discriminate D);
    try (exfalso; exact N); try (exfalso; exact D).
  - (* a value for a SEQUENCE *)
    simpl in N. destruct N as [N|[(c & l & N)|(t' & c & N & _)]];
      [intuition discriminate|simpl in N; intuition discriminate|simpl in N; intuition discriminate].
  - inversion D.
  - (* BOOLEAN *)
    simpl in N. destruct N as [N|[(c & l & N)|(t' & c & N & T)]];
      [intuition discriminate|simpl in N; intuition discriminate|].
    simpl in N. repeat (destruct N as [N|N]; [try discriminate N|]); [|destruct N]. injection N as <- <-.
    destruct T as [(r & T)|[(r & T)|[T|T]]]; discriminate T.
Qed.
Print Assumptions C75_initialisers_fit_refuted.

(** C76.  Full statement: no header defines a variable, so that a header can
    be included by any number of sources.  It holds of the modules in which no
    definition comes with a variable ([has_variable]: CHOICE, and for command c
    a SEQUENCE with a clause), and only of those.  Missing for C76: the
    others, see below. *)
Theorem C76_no_variables_partial : forall names cmd fuel input fs fs' m h, config_command names cmd ->
  Forall (fun m => grammatical m = true) input -> run fuel cmd input fs = (fs', Ok tt) -> In m input -> quiet m ->
  header_of cmd fs' m h ->
  ((exists x, In x (h_decls h) /\ defines_variable x) <-> exists d, In d (mod_defs m) /\ has_variable cmd d).
Proof. exact header_objects. Qed.
Print Assumptions C76_no_variables_partial.

(** A union is a variable for every command, a clause for command c. *)
Definition union_module : module :=
  mkmodule "m" None [] None
    [DSequence "S" None [mkmember "a" TBoolean None None]; DChoice "Which" None [mkmember "s" (TName "S") None None]].
Theorem C76_no_variables_refuted :
  (forall cmd, config_command ["m"] cmd -> exists fs' h,
     grammatical union_module = true /\ quiet union_module /\ run 9 cmd [union_module] [] = (fs', Ok tt)
     /\ header_of cmd fs' union_module h /\ In (XUnion "Which" [mkxfield ["S"] "s" None None] "which") (h_decls h))
  /\ exists m fs' h, with_clause (TName "Box") good_clause = [m] /\ grammatical m = true /\ quiet m
     /\ run 9 (GenerateC ["m"]) [m] [] = (fs', Ok tt) /\ header_of (GenerateC ["m"]) fs' m h
     /\ In (XVar "Frame" "frame") (h_decls h)
     /\ forall x, In x (h_decls h) -> defines_variable x -> x = XVar "Frame" "frame".
Proof.
  split.
  - intros cmd [->|[->|([|] & ->)]];
      (do 2 eexists; split; [reflexivity|]; split; [repeat constructor|]; split; [vm_compute; reflexivity|];
       split; [eexists; split; vm_compute; reflexivity|]; right; left; reflexivity).
  - do 3 eexists. split; [reflexivity|]. split; [reflexivity|]. split; [repeat constructor|]. split; [vm_compute; reflexivity|].
    split; [eexists; split; vm_compute; reflexivity|]. split; [do 4 right; left; reflexivity|].
    intros x Hx D. simpl in Hx. repeat (destruct Hx as [Hx|Hx]; [subst x; first [contradiction|reflexivity]|]). destruct Hx.
Qed.
Print Assumptions C76_no_variables_refuted.

(** A header without variables. *)
Example C76_sample : exists m fs' h,
  m = mkmodule "m" None [] None parts /\ grammatical m = true /\ quiet m
  /\ run 9 (GenerateC ["m"]) [m] [] = (fs', Ok tt) /\ header_of (GenerateC ["m"]) fs' m h
  /\ length (h_decls h) = 3%nat /\ forall x, In x (h_decls h) -> ~ defines_variable x.
Proof.
  do 3 eexists. split; [reflexivity|]. split; [reflexivity|]. split; [repeat constructor|]. split; [vm_compute; reflexivity|].
  split; [eexists; split; vm_compute; reflexivity|]. split; [reflexivity|].
  intros x Hx D. simpl in Hx. repeat (destruct Hx as [Hx|Hx]; [subst x; contradiction|]). destruct Hx.
Qed.
