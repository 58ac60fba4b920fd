(** * Property C100: what the printed outline of a module tells *)
From Verif Require Import Base PyNum PyStr PyFloat Ast Pprint Spec_Grammar Spec_Outline Pprint_proofs.
Open Scope string_scope.

(** C100.  [pprint] tells all of the outline of a module and nothing else: two
    modules print the same text exactly if they have the same name, the same
    imports, the same names and kinds of definitions (but for CHOICE and
    ENUMERATED, which look the same), and SEQUENCEs with the same keys, type
    names, ranges and WITH COMPONENTS clauses, to the last digit of their
    values. *)
Theorem C100_outline : forall m m', grammatical m = true -> grammatical m' = true ->
  (pprint m = pprint m' <-> outline_of m = outline_of m').
Proof. exact pprint_iff. Qed.
Print Assumptions C100_outline.

(** So it does not tell modules apart: a SEQUENCE OF prints like its elements
    without their range. *)
Definition array_module : module :=
  mkmodule "tank" None [] None [DSimple "Levels" (TArray 3 (TInteger (Some (0, 7)%Z))) None].
Definition number_module : module :=
  mkmodule "tank" None [] None [DSimple "Levels" (TInteger None) None].
Theorem C100_hides : exists m m', grammatical m = true /\ grammatical m' = true
  /\ mod_defs m <> mod_defs m' /\ map def_comment (mod_defs m) = map def_comment (mod_defs m') /\ pprint m = pprint m'.
Proof. exists array_module, number_module. repeat split. intros H. discriminate H. Qed.
Print Assumptions C100_hides.

(** Two modules of different outlines, with all kinds of lines. *)
Definition printed (limit : Z) : module :=
  mkmodule "pump-control" (Some (mkcomment "pumps" "" false)) [mkimport ["Mode"; "Tank"] "tank" None] None
    [DSimple "Level" (TReal (Some (py_float false 0 0, py_float false 25 (-1)))) None;
     DChoice "Alarm" None [mkmember "leak" TNull None None];
     DSequence "Pump" None
       [mkmember "mode" (TName "Mode") None None;
        mkmember "tank" (TName "Tank") None
          (Some (WC None [WI "level" (VFloat (py_float false 1 (-1))) None;
                          WI "state" (VWith (WC None [WI "open" (VBool true) None; WI "limit" (VInt limit) None])) None]))]].
Example C100_sample : grammatical (printed 7) = true /\ grammatical (printed 8) = true /\ outline_of (printed 7) <> outline_of (printed 8)
  /\ pprint (printed 7) = String.concat NL
      ["Module: pump-control";
       "├── Imports";
       "│   ├─ ImportItem: tank";
       "│   │   ├── Mode";
       "│   │   ├── Tank";
       "├── Definitions";
       "│   ├─ SimpleDefinition name=Level type=REAL(0.0 -> 2.5)";
       "│       ├─ Asn1Type type_name=REAL begin=0.0 end=2.5";
       "│   ├─ Definition: Alarm";
       "│   ├─ Sequence name=Pump";
       "│       ├─ KeyTypePair key=mode type=Mode(None -> None) value=None";
       "│       ├─ KeyTypePair key=tank type=Tank(None -> None) value=WithComponents";
       "│           ├─ ComponentsItem: key=level value=float - value=0.1";
       "│           ├─ ComponentsItem: key=state value=WithComponents";
       "│               ├─ ComponentsItem: key=open value=bool - value=True";
       "│               ├─ ComponentsItem: key=limit value=int - value=7"; ""].
Proof. vm_compute. repeat split. intros H. discriminate H. Qed.
