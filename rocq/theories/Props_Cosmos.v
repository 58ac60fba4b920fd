From Coq Require Import Lia.
(** * Properties C41, C42, C44, C45 and C48: COSMOS packets *)
From Verif Require Import Base PyNum PyStr Ast Size Bundle GenCosmos Main Spec_Enum Enum_proofs Spec_Grammar Spec_Num Spec_Check
  Spec_Bundle Spec_Size Spec_Cosmos Cosmos_proofs Cosmos_text_proofs Samples.
Open Scope string_scope.
Open Scope Z_scope.

(** ** A sample: imports in the shape of a diamond *)

Definition apid := "application-process-identifier".

Definition diamond : list module :=
  [mkmodule "top" None [mkimport ["Left"] "left" None; mkimport ["Right"] "right" None] None
     [DSequence "Msg" (Some (mkcomment "a message" "" false))
        [mkmember "l" (TName "Left") None
           (Some (WC None [WI apid (VInt 26) None; WI "on" (VBool true) None]));
         mkmember "r" (TName "Right") None None]];
   mkmodule "left" None [mkimport ["Level"] "base" None] None
     [DSequence "Left" None [mkmember apid (TName "Level") None None; mkmember "on" TBoolean None None]];
   mkmodule "right" None [mkimport ["Level"; "Mode"] "base" None] None
     [DSequence "Right" None
        [mkmember "a" (TArray 4 (TName "Level")) (Some (mkcomment "levels" "m" true)) None;
         mkmember "b" (TName "Mode") None None]];
   mkmodule "base" None [] None
     [DSimple "Level" (TInteger (Some (0, 100))) None;
      DEnumerated "Mode" None [mkenum "off" None None; mkenum "on" None None; mkenum "auto" None None]]].

Lemma diamond_grammatical : Forall (fun m => grammatical m = true) diamond.
Proof. repeat constructor; vm_compute; reflexivity. Qed.

Definition diamond_bundle : bundle := match build_from_cosmos_config diamond with Ok b => b | _ => mkbundle [] [] end.
Lemma diamond_built : build_from_cosmos_config diamond = Ok diamond_bundle.
Proof. vm_compute. reflexivity. Qed.

Lemma diamond_acyclic : forall i, acyclic_from (all_modules diamond_bundle) i.
Proof. apply (descend_acyclic (fun i => 3 - i)%nat). vm_compute. reflexivity. Qed.

(** ** C44: definitions by name *)

(** What is found is the only visible definition of that name; an error iff
    there is none. *)
Theorem C44_resolved : forall input bun, accepted input bun ->
  forall fuel n i,
  match get_definition fuel bun n i with
  | Ok r => visible (all_modules bun) i (dr_def r) /\ def_name (dr_def r) = n
            /\ forall d, visible (all_modules bun) i d -> def_name d = n -> d = dr_def r
  | Err e => e = ConsistencyError /\ forall d, visible (all_modules bun) i d -> def_name d <> n
  | OutOfFuel => True
  end.
Proof. exact resolved_definition. Qed.
Print Assumptions C44_resolved.

(** The search from a module ends if no cycle of imports is reached from it. *)
Theorem C44_ends : forall input bun, accepted input bun -> forall i, acyclic_from (all_modules bun) i ->
  forall fuel n, (length (all_modules bun) < fuel)%nat -> get_definition fuel bun n i <> OutOfFuel.
Proof. exact resolution_ends. Qed.
Print Assumptions C44_ends.

(** It does not end if a module that imports from itself, over any number of
    modules, is reached. *)
Theorem C44_cyclic : forall input bun, accepted input bun ->
  forall i j k, reaches_module (all_modules bun) i j -> imports_module (all_modules bun) j k ->
  reaches_module (all_modules bun) k j -> forall fuel n, get_definition fuel bun n i = OutOfFuel.
Proof. exact resolution_cyclic. Qed.
Print Assumptions C44_cyclic.

Example C44_sample : accepted diamond diamond_bundle /\ (forall i, acyclic_from (all_modules diamond_bundle) i)
  /\ (exists r, get_definition 5 diamond_bundle "Level" 0 = Ok r /\ dr_mod r = 3%nat)
  /\ get_definition 5 diamond_bundle "Msg" 1 = Err ConsistencyError.
Proof.
  split; [right; exact diamond_built|]. split; [exact diamond_acyclic|]. split; [|vm_compute; reflexivity].
  eexists. split; [vm_compute; reflexivity|reflexivity].
Qed.

Definition circle : list module :=
  [mkmodule "a" None [mkimport ["B"] "b" None] None
     [DSequence "A" None [mkmember "x" (TName "B") None None]; DSimple "C" (TInteger (Some (0, 3))) None];
   mkmodule "b" None [mkimport ["C"] "a" None] None
     [DSequence "B" None [mkmember "y" TBoolean None None]; DSequence "D" None [mkmember "z" (TName "C") None None]]].

Example C44_cyclic_sample : exists bun, accepted circle bun
  /\ imports_module (all_modules bun) 0 1 /\ reaches_module (all_modules bun) 1 0.
Proof.
  eexists. split; [right; vm_compute; reflexivity|].
  split; [eapply imports_computed; vm_compute; reflexivity|].
  apply (reach_import _ 1 0 0); [eapply imports_computed; vm_compute; reflexivity|apply reach_here].
Qed.

(** ** C41: items and leaves *)

(** The text written consists of one part per message; each lists the leaves of
    the message in order, with name, width, kind, comment, endianness, states,
    limits and unit. *)
Theorem C41_text : forall fuel mn msgs target input fs fs', Forall (fun m => grammatical m = true) input ->
  run fuel (GenerateCosmos mn msgs target) input fs = (fs', Ok tt) ->
  exists ms ts, Forall2 same_module input ms
    /\ folder_get fs' (target ++ ".txt")
       = Some (match folder_get fs (target ++ ".txt") with Some old => old | None => "" end ++ text_of_run ts)
    /\ (forall n, n <> target ++ ".txt" -> folder_get fs' n = folder_get fs n)
    /\ ((msgs = [] /\ ts = [] /\ ~ In mn (map mod_name ms))
        \/ exists i m, first_named ms i m /\ mod_name m = mn
           /\ Forall2 (text_of_message any_value ms i m target) msgs ts).
Proof. exact run_lists_leaves. Qed.
Print Assumptions C41_text.

(** The run ends well if all types of the messages resolve to leaves; an APID
    among them has to be fixed to a number, then no leaf may be fixed twice. *)
Theorem C41_complete : forall mn msgs target input bun fs, Forall (fun m => grammatical m = true) input ->
  build_from_cosmos_config input = Ok bun ->
  forall i m, first_named (all_modules bun) i m -> mod_name m = mn ->
  (looks_up m msgs -> acyclic_from (all_modules bun) i) ->
  (forall n, In n msgs -> exists cm l ls, In (DSequence n cm l) (mod_defs m)
     /\ packet_leaves (all_modules bun) i [] l ls /\ Forall (fun lf => apid_ok (lf_member lf)) ls)
  \/ (forall n, In n msgs -> exists cm l ls, In (DSequence n cm l) (mod_defs m)
     /\ packet_leaves (all_modules bun) i [] l ls /\ Forall (fun lf => apid_given lf /\ one_clause lf) ls) ->
  exists F, forall fuel, (F <= fuel)%nat -> exists fs', run fuel (GenerateCosmos mn msgs target) input fs = (fs', Ok tt).
Proof. exact run_complete. Qed.
Print Assumptions C41_complete.

Definition diamond_msg : list member :=
  [mkmember "l" (TName "Left") None (Some (WC None [WI apid (VInt 26) None; WI "on" (VBool true) None]));
   mkmember "r" (TName "Right") None None].
Definition diamond_leaves : list leaf :=
  match diamond_msg with
  | [l; r] =>
      [mkleaf [l] (mkmember apid (TName "Level") None None) (TInteger (Some (0, 100))) A_UINT 7 [];
       mkleaf [l] (mkmember "on" TBoolean None None) TBoolean A_BOOL 1 ["False"; "True"];
       mkleaf [r] (mkmember "a" (TArray 4 (TName "Level")) (Some (mkcomment "levels" "m" true)) None)
         (TInteger (Some (0, 100))) A_UINT 7 [];
       mkleaf [r] (mkmember "b" (TName "Mode") None None) (TInteger (Some (0, 2))) A_UINT 2 ["off"; "on"; "auto"]]
  | _ => []
  end.

Lemma diamond_visible : forall j m d, (j < 4)%nat -> nth_error (all_modules diamond_bundle) j = Some m -> In d (mod_defs m) ->
  visible (all_modules diamond_bundle) 0 d.
Proof.
  intros j m d L Hm Hd. exists j, m. split; [|auto].
  assert (I1 : imports_module (all_modules diamond_bundle) 0 1) by (eapply imports_computed; vm_compute; reflexivity).
  assert (I2 : imports_module (all_modules diamond_bundle) 0 2) by (eapply imports_computed; vm_compute; reflexivity).
  assert (I3 : imports_module (all_modules diamond_bundle) 1 3) by (eapply imports_computed; vm_compute; reflexivity).
  destruct j as [|[|[|[|j]]]]; [..|lia]; eauto using reaches_module.
Qed.

Lemma diamond_packet : packet_leaves (all_modules diamond_bundle) 0 [] diamond_msg diamond_leaves.
Proof.
  assert (V := diamond_visible). unfold diamond_msg, diamond_leaves.
  assert (W : item_type (all_modules diamond_bundle) 0 (TName "Level") (TInteger (Some (0, 100))) A_UINT 7 []).
  { eapply item_simple; [reflexivity|eapply (V 3%nat); [lia|vm_compute; reflexivity|left; reflexivity]|].
    apply written_unsigned; [lia|exact (bit_length_least 100 ltac:(lia))]. }
  assert (W' : item_type (all_modules diamond_bundle) 0 (TArray 4 (TName "Level")) (TInteger (Some (0, 100))) A_UINT 7 []).
  { eapply item_simple; [reflexivity|eapply (V 3%nat); [lia|vm_compute; reflexivity|left; reflexivity]|].
    apply written_unsigned; [lia|exact (bit_length_least 100 ltac:(lia))]. }
  eapply (pl_nested _ _ _ _ _ _ _ _ [_; _]);
    [reflexivity|eapply (V 1%nat); [lia|vm_compute; reflexivity|left; reflexivity]|
     |eapply (pl_nested _ _ _ _ _ _ _ _ [_; _] []);
      [reflexivity|eapply (V 2%nat); [lia|vm_compute; reflexivity|left; reflexivity]| |apply pl_nil]].
  - apply pl_leaf; [exact W|apply pl_leaf; [apply item_boolean; reflexivity|apply pl_nil]].
  - apply pl_leaf; [exact W'|apply pl_leaf; [|apply pl_nil]].
    refine (item_enum _ _ (TName "Mode") "Mode" None
      [mkenum "off" (Some 0) None; mkenum "on" (Some 1) None; mkenum "auto" (Some 2) None] 2 eq_refl _ (bit_length_least 2 ltac:(lia))).
    eapply (V 3%nat); [lia|vm_compute; reflexivity|right; left; reflexivity].
Qed.

Lemma diamond_one_clause : Forall (fun lf => apid_given lf /\ one_clause lf) diamond_leaves.
Proof.
  assert (O : forall a lf, lf_path lf = [a] -> NoDup (flat_map (map wi_key) (own_clause a)) ->
    (forall w, ~ In (VWith w) (fixed_values lf)) -> one_clause lf).
  { intros a lf E N W. split; [|exact W]. intros p q Ep. rewrite E in Ep. destruct p as [|b [|c p]]; [| |discriminate].
    - split; [vm_compute; lia|constructor].
    - injection Ep as <- _. unfold clauses_at. cbn [fold_left flat_map]. rewrite app_nil_r. unfold own_clause in *.
      destruct (m_with a); (split; [simpl; lia|]); [|constructor]. constructor; [|constructor]. cbn [flat_map] in N. rewrite app_nil_r in N. exact N. }
  repeat (apply Forall_cons; [split; [|eapply O; [reflexivity|repeat constructor; vm_compute; intuition discriminate
    |intros w H; vm_compute in H; intuition discriminate]]|]); [| | | |constructor].
  - right. left. exists 26. vm_compute. reflexivity.
  - left. right. vm_compute. discriminate.
  - left. right. vm_compute. discriminate.
  - left. right. vm_compute. discriminate.
Qed.

Lemma diamond_first : first_named (all_modules diamond_bundle) 0 (nth 0 (all_modules diamond_bundle) (mkmodule "" None [] None [])).
Proof. split; [vm_compute; reflexivity|]. intros j m' L. lia. Qed.

Example C41_sample : Forall (fun m => grammatical m = true) diamond /\ build_from_cosmos_config diamond = Ok diamond_bundle
  /\ acyclic_from (all_modules diamond_bundle) 0
  /\ exists m, first_named (all_modules diamond_bundle) 0 m /\ mod_name m = "top"
     /\ In (DSequence "Msg" (Some (mkcomment "a message" "" false)) diamond_msg) (mod_defs m)
     /\ packet_leaves (all_modules diamond_bundle) 0 [] diamond_msg diamond_leaves
     /\ Forall (fun lf => apid_given lf /\ one_clause lf) diamond_leaves.
Proof.
  split; [exact diamond_grammatical|]. split; [exact diamond_built|]. split; [exact (diamond_acyclic 0)|].
  eexists. split; [exact diamond_first|]. split; [vm_compute; reflexivity|]. split; [left; reflexivity|].
  split; [exact diamond_packet|exact diamond_one_clause].
Qed.

Example C41_text_sample : exists fs, run 9 (GenerateCosmos "top" ["Msg"] "out") diamond [] = (fs, Ok tt)
  /\ folder_get fs "out.txt" = Some (text_of_run ["TELEMETRY out Msg BIG_ENDIAN " ++ DQUOTE ++ "a message" ++ DQUOTE ++ NL
    ++ "    APPEND_ID_ITEM      application-process-identifier        7 UINT       0x1A " ++ DQUOTE ++ DQUOTE ++ NL
    ++ "    APPEND_ID_ITEM      on                                    1 UINT          1 " ++ DQUOTE ++ DQUOTE ++ NL
    ++ "        STATE False                           0" ++ NL
    ++ "        STATE True                            1" ++ NL
    ++ "    APPEND_ARRAY_ITEM   a                                     7 UINT         28 " ++ DQUOTE ++ "levels" ++ DQUOTE
    ++ " LITTLE_ENDIAN" ++ NL
    ++ "        UNITS m m" ++ NL
    ++ "    APPEND_ITEM         b                                     2 UINT            " ++ DQUOTE ++ DQUOTE ++ NL
    ++ "        STATE off                             0" ++ NL
    ++ "        STATE on                              1" ++ NL
    ++ "        STATE auto                            2" ++ NL]).
Proof. eexists. split; vm_compute; reflexivity. Qed.

(** ** C42: values *)

(** If at most one clause speaks about each member on the path of a leaf, the
    values shown are those of the clauses, and the text of a message is the
    same as if it were generated alone.  Missing: messages with several clauses
    on a path, see the two refutations; BOOLEAN items see C45_refuted. *)
Theorem C42_values_partial : forall fuel mn msgs target input fs fs', Forall (fun m => grammatical m = true) input ->
  run fuel (GenerateCosmos mn msgs target) input fs = (fs', Ok tt) ->
  exists ms ts, Forall2 same_module input ms
    /\ folder_get fs' (target ++ ".txt")
       = Some (match folder_get fs (target ++ ".txt") with Some old => old | None => "" end ++ text_of_run ts)
    /\ forall i m, first_named ms i m -> mod_name m = mn -> one_clause_each ms i m msgs ->
       Forall2 (fun n t => text_of_message fixed_value ms i m target n t
                  /\ exists fs1, run fuel (GenerateCosmos mn [n] target) input [] = (fs1, Ok tt)
                       /\ folder_get fs1 (target ++ ".txt") = Some (text_of_run [t])) msgs ts.
Proof. exact run_values. Qed.
Print Assumptions C42_values_partial.

(** "First" fixes y, below a member of "Detail" that has a clause of its own. *)
Definition leak_module : module :=
  mkmodule "m" None [] None
    [DSequence "First" None [mkmember "d" (TName "Detail") None
       (Some (WC None [WI "p" (VWith (WC None [WI "y" (VInt 2) None])) None]))];
     DSequence "Second" None [mkmember "d" (TName "Detail") None None];
     DSequence "Detail" None [mkmember "p" (TName "Point") None (Some (WC None [WI "x" (VInt 1) None]))];
     DSequence "Point" None [mkmember "x" (TInteger (Some (0, 7))) None None; mkmember "y" (TInteger (Some (0, 7))) None None]].

(** The value of y leaks into the message generated afterwards. *)
Theorem C42_independent_refuted : exists input fs1 fs2 a b b',
  Forall (fun m => grammatical m = true) input
  /\ run 9 (GenerateCosmos "m" ["First"; "Second"] "out") input [] = (fs1, Ok tt)
  /\ folder_get fs1 "out.txt" = Some (text_of_run [a; b])
  /\ run 9 (GenerateCosmos "m" ["Second"] "out") input [] = (fs2, Ok tt)
  /\ folder_get fs2 "out.txt" = Some (text_of_run [b'])
  /\ b <> b'.
Proof.
  set (part := fun n y : string => "TELEMETRY out " ++ n ++ " BIG_ENDIAN " ++ DQUOTE ++ DQUOTE ++ NL
    ++ "    APPEND_ID_ITEM      x                                     3 UINT          1 " ++ DQUOTE ++ DQUOTE ++ NL
    ++ y ++ DQUOTE ++ DQUOTE ++ NL).
  set (fixed := "    APPEND_ID_ITEM      y                                     3 UINT          2 ").
  set (open := "    APPEND_ITEM         y                                     3 UINT            ").
  exists [leak_module]. do 2 eexists. exists (part "First" fixed), (part "Second" fixed), (part "Second" open).
  split; [repeat constructor; vm_compute; reflexivity|]. repeat (split; [vm_compute; reflexivity|]).
  intros E. vm_compute in E. discriminate E.
Qed.
Print Assumptions C42_independent_refuted.

(** A component fixed both by the clause of its member and by one further out. *)
Definition twice_module : module :=
  mkmodule "m" None [] None
    [DSequence "First" None [mkmember "d" (TName "Detail") None
       (Some (WC None [WI "p" (VWith (WC None [WI "x" (VInt 1) None])) None]))];
     DSequence "Detail" None [mkmember "p" (TName "Point") None (Some (WC None [WI "x" (VInt 1) None]))];
     DSequence "Point" None [mkmember "x" (TInteger (Some (0, 7))) None None]].

(** It has no value at all then, even if both agree. *)
Theorem C42_twice_refuted : exists input ms fs l lf f before line after,
  Forall (fun m => grammatical m = true) input /\ Forall2 same_module input ms
  /\ run 9 (GenerateCosmos "m" ["First"] "out") input [] = (fs, Ok tt)
  /\ In (DSequence "First" None l) (definitions ms) /\ packet_leaves ms 0 [] l [lf]
  /\ fixed_values lf = [VInt 1; VInt 1]
  /\ folder_get fs "out.txt" = Some (before ++ line ++ after)
  /\ laid_out line f /\ fd_name f = m_key (lf_member lf)
  /\ fd_keyword f = "APPEND_ITEM" /\ fd_value f = "".
Proof.
  exists [twice_module], [twice_module]. eexists.
  set (e := mkentry "x" 3 A_UINT "" "" "" None [] false false).
  exists (members_of (nth 0 (mod_defs twice_module) (DSimple "" TBoolean None))).
  exists (mkleaf [mkmember "d" (TName "Detail") None
       (Some (WC None [WI "p" (VWith (WC None [WI "x" (VInt 1) None])) None]));
       mkmember "p" (TName "Point") None (Some (WC None [WI "x" (VInt 1) None]))]
       (mkmember "x" (TInteger (Some (0, 7))) None None) (TInteger (Some (0, 7))) A_UINT 3 []).
  exists (entry_fields e), ("# This file was autogenerated from ASN.1 model." ++ NL ++ NL ++ "TELEMETRY out First BIG_ENDIAN " ++ DQUOTE ++ DQUOTE ++ NL),
    (item_line e), "".
  split; [repeat constructor; vm_compute; reflexivity|].
  split; [constructor; [|constructor]; repeat constructor|].
  split; [vm_compute; reflexivity|]. split; [left; reflexivity|]. split.
  - assert (V : forall d, In d (mod_defs twice_module) -> visible [twice_module] 0 d).
    { intros d Hd. exists 0%nat, twice_module. split; [apply reach_here|auto]. }
    eapply (pl_nested _ _ _ _ "Detail" None _ _ [_] []); [reflexivity|apply V; right; left; reflexivity| |apply pl_nil].
    eapply (pl_nested _ _ _ _ "Point" None _ _ [_] []); [reflexivity|apply V; right; right; left; reflexivity| |apply pl_nil].
    apply pl_leaf; [|apply pl_nil]. apply item_number; [reflexivity|discriminate|]. apply written_unsigned; [lia|].
    exact (bit_length_least 7 ltac:(lia)).
  - split; [vm_compute; reflexivity|]. split; [vm_compute; reflexivity|].
    split; [|repeat split; reflexivity]. apply item_line_laid_out; [apply lower_word; reflexivity|intros []|intros []].
Qed.
Print Assumptions C42_twice_refuted.

Example C42_sample : Forall (fun m => grammatical m = true) diamond
  /\ exists fs m, run 9 (GenerateCosmos "top" ["Msg"] "out") diamond [] = (fs, Ok tt)
     /\ first_named (all_modules diamond_bundle) 0 m /\ mod_name m = "top"
     /\ one_clause_each (all_modules diamond_bundle) 0 m ["Msg"].
Proof.
  split; [exact diamond_grammatical|]. eexists. eexists. split; [vm_compute; reflexivity|]. split; [exact diamond_first|].
  split; [vm_compute; reflexivity|]. intros n cm l ls [<-|[]] Hd P. vm_compute in Hd. destruct Hd as [Hd|[]]. injection Hd as _ <-.
  assert (E : ls = diamond_leaves) by (eapply leaves_unique; [right; exact diamond_built|exact P|exact diamond_packet]).
  subst ls. eapply Forall_impl; [|exact diamond_one_clause]. simpl. tauto.
Qed.

(** ** C45: only fixed items are ID items *)

(** Items that are not BOOLEAN, under the hypothesis of C42. *)
Theorem C45_only_fixed_partial : forall fuel mn msgs target input fs fs', Forall (fun m => grammatical m = true) input ->
  run fuel (GenerateCosmos mn msgs target) input fs = (fs', Ok tt) ->
  exists ms ts, Forall2 same_module input ms
    /\ folder_get fs' (target ++ ".txt")
       = Some (match folder_get fs (target ++ ".txt") with Some old => old | None => "" end ++ text_of_run ts)
    /\ forall i m, first_named ms i m -> mod_name m = mn -> one_clause_each ms i m msgs ->
       Forall2 (text_of_message (fun lf f => lf_kind lf <> A_BOOL -> fixed_values lf = [] -> fd_keyword f <> "APPEND_ID_ITEM")
                  ms i m target) msgs ts.
Proof. exact run_only_fixed. Qed.
Print Assumptions C45_only_fixed_partial.

(** Items that are not BOOLEAN and whose name occurs in no clause at all,
    whatever else the clauses say. *)
Theorem C45_unmentioned_partial : forall fuel mn msgs target input fs fs', Forall (fun m => grammatical m = true) input ->
  run fuel (GenerateCosmos mn msgs target) input fs = (fs', Ok tt) ->
  exists ms ts, Forall2 same_module input ms
    /\ folder_get fs' (target ++ ".txt")
       = Some (match folder_get fs (target ++ ".txt") with Some old => old | None => "" end ++ text_of_run ts)
    /\ forall i m, first_named ms i m -> mod_name m = mn ->
       Forall2 (text_of_message (unmentioned_item (definitions ms)) ms i m target) msgs ts.
Proof. exact run_unmentioned. Qed.
Print Assumptions C45_unmentioned_partial.

(** A BOOLEAN item that is not fixed becomes an ID item with value 0. *)
Theorem C45_refuted : exists input fs l lf f before line after,
  Forall (fun m => grammatical m = true) input
  /\ run 9 (GenerateCosmos "m" ["S"] "out") input [] = (fs, Ok tt)
  /\ In (DSequence "S" None l) (definitions input) /\ packet_leaves input 0 [] l [lf]
  /\ fixed_values lf = []
  /\ folder_get fs "out.txt" = Some (before ++ line ++ after)
  /\ laid_out line f /\ fd_name f = m_key (lf_member lf)
  /\ fd_keyword f = "APPEND_ID_ITEM" /\ fd_value f = "0".
Proof.
  exists [mkmodule "m" None [] None [DSequence "S" None [mkmember "flag" TBoolean None None]]]. eexists.
  set (e := mkentry "flag" 1 A_BOOL "" "" "" None [] false false).
  exists [mkmember "flag" TBoolean None None], (mkleaf [] (mkmember "flag" TBoolean None None) TBoolean A_BOOL 1 ["False"; "True"]).
  exists (entry_fields e), ("# This file was autogenerated from ASN.1 model." ++ NL ++ NL ++ "TELEMETRY out S BIG_ENDIAN " ++ DQUOTE ++ DQUOTE ++ NL),
    (item_line e), (state_lines 0 ["False"; "True"]).
  split; [repeat constructor; vm_compute; reflexivity|]. split; [vm_compute; reflexivity|]. split; [left; reflexivity|].
  split; [apply pl_leaf; [apply item_boolean; reflexivity|apply pl_nil]|].
  split; [reflexivity|]. split; [vm_compute; reflexivity|].
  split; [|repeat split; reflexivity]. apply item_line_laid_out; [apply lower_word; reflexivity|intros []|].
  intros [X|[]]. discriminate.
Qed.
Print Assumptions C45_refuted.

(** ** C48: reading lines back *)

(** At most one way to read a line whose value contains no space or quote; the
    comment extends to the last quote.  (That every line written can be read is
    part of C41_text; that values are like that, of C42_values_partial.)
    Missing: a leaf that is given a clause instead of a value. *)
Theorem C48_read_back_partial : forall s f f', laid_out s f -> laid_out s f' ->
  plain (fd_value f) -> plain (fd_value f') -> f = f'.
Proof. exact read_back. Qed.
Print Assumptions C48_read_back_partial.

(** The comment need not end at the next quote: a comment with a quote is
    accepted and written as it is. *)
Theorem C48_quoted_refuted : exists input fs before line after f,
  Forall (fun m => grammatical m = true) input
  /\ run 9 (GenerateCosmos "m" ["S"] "out") input [] = (fs, Ok tt)
  /\ folder_get fs "out.txt" = Some (before ++ line ++ after)
  /\ laid_out line f /\ plain (fd_value f)
  /\ forall f', laid_out line f' -> plain (fd_value f') -> has_char DQ (fd_comment f').
Proof.
  set (cm := "a " ++ DQUOTE ++ "b" ++ DQUOTE ++ " c").
  exists [mkmodule "m" None [] None [DSequence "S" None [mkmember "x" (TInteger (Some (0, 7))) (Some (mkcomment cm "" false)) None]]]. eexists.
  set (e := mkentry "x" 3 A_UINT "" cm "" None [] false false).
  exists ("# This file was autogenerated from ASN.1 model." ++ NL ++ NL ++ "TELEMETRY out S BIG_ENDIAN " ++ DQUOTE ++ DQUOTE ++ NL),
    (item_line e), "", (entry_fields e).
  assert (L : laid_out (item_line e) (entry_fields e)).
  { apply item_line_laid_out; [apply lower_word; reflexivity| |intros []]. intros H. vm_compute in H. intuition discriminate. }
  assert (P : plain (fd_value (entry_fields e))) by (apply pchar_plain; reflexivity).
  split; [repeat constructor; vm_compute; reflexivity|]. split; [vm_compute; reflexivity|]. split; [vm_compute; reflexivity|].
  split; [exact L|]. split; [exact P|].
  intros f' L' P'. rewrite <- (read_back _ _ _ L L' P P'). vm_compute. tauto.
Qed.
Print Assumptions C48_quoted_refuted.
