(** * A sample bundle

    The modules of the test tests/integration/generators/cfs/… used by
    [conformance_27]: CCSDS and cFE headers, a housekeeping packet and simple
    types.  The examples beside the theorems use it to show that their
    hypotheses can be met. *)
From Verif Require Import Base PyNum Ast Spec_Grammar.
Open Scope string_scope.
Open Scope Z_scope.

Definition sample_modules : list module :=
 [(mkmodule "ccsds-headers" (Some (mkcomment "CCSDS TM/TC headers" "" false)) [mkimport ["Uint3";
     "Uint11"; "Uint14"; "Uint8-t"; "Uint16-t"; "Uint32-t"] "simple-types" None] None
  [DSequence "Ccsds-primary-header" (Some (mkcomment "primary header" "" false)) [mkmember
     "packet-identification" (TName "Packet-identification") None None; mkmember
     "packet-sequence-control" (TName "Packet-sequence-control") None None; mkmember
     "packet-data-length" (TName "Uint16-t") (Some (mkcomment "length of the packet" "" false))
     None];
   DSequence "Packet-identification" None [mkmember "packet-version-number" (TName "Uint3") (Some
     (mkcomment "moved from Ccsds-primary-header to here to avoid C compiler padding issues" ""
     false)) None; mkmember "packet-type-is-cmd" TBoolean None None; mkmember
     "sec-hdr-flag-is-present" TBoolean None None; mkmember "application-process-identifier" (TName
     "Uint11") None None];
   DSequence "Packet-sequence-control" None [mkmember "sequence-flags" (TName "Sequence-flag") None
     None; mkmember "packet-sequence-count" (TName "Uint14") None None];
   DEnumerated "Sequence-flag" None [mkenum "continuation-packet-in-sequence" (Some 0) None; mkenum
     "first-packet-in-sequence" (Some 1) None; mkenum "last-packet-in-sequence" (Some 2) None;
     mkenum "complete-packet" (Some 3) None];
   DSequence "Ccsds-extended-header" None [mkmember "subsystem" (TName "Uint16-t") None None;
     mkmember "system-id" (TName "Uint16-t") None None]]);
  (mkmodule "cfe-headers" (Some (mkcomment "cFE TM/TC headers" "" false)) [mkimport ["Uint8-t";
     "Uint16-t"; "Uint32-t"] "simple-types" None; mkimport ["Ccsds-primary-header"] "ccsds-headers"
     None] None
  [DSequence "Cfe-cmd-header" None [mkmember "primary" (TName "Ccsds-primary-header") None None;
     mkmember "secondary" (TName "Cfe-tc-secondary-header") None None];
   DSequence "Cfe-tlm-header" None [mkmember "primary" (TName "Ccsds-primary-header") None None;
     mkmember "secondary" (TName "Cfe-tm-secondary-header") None None; mkmember "spare" (TName
     "Uint32-t") (Some (mkcomment "Spares" "" false)) None];
   DSequence "Cfe-tc-secondary-header" None [mkmember "function-code" (TName "Uint8-t") None None;
     mkmember "checksum" (TName "Uint8-t") None None];
   DSequence "Cfe-tm-secondary-header" None [mkmember "seconds" (TName "Uint32-t") (Some (mkcomment
     "" "sec" false)) None; mkmember "subsecs" (TName "Uint16-t") (Some (mkcomment
     "unit: 2**-16 sec = 0.015 ms" "" false)) None]]);
  (mkmodule "sandbox-hk-pc" None [mkimport ["Cfe-tlm-header"] "cfe-headers" None; mkimport
     ["Uint64-t"] "simple-types" None] None
  [DSimple "Percent-range" (TReal (Some ((mkfloat (DFin false 0 (-1074)) "0.0"), (mkfloat (DFin
     false 7036874417766400 (-46)) "100.0")))) None;
   DSimple "Load-range" (TReal (Some ((mkfloat (DFin false 0 (-1074)) "0.0"), (mkfloat (DFin false
     8444249301319680 (-48)) "30.0")))) None;
   DSequence "Sandbox-hk-pc" (Some (mkcomment "(0x0899) SANDBOX PC housekeeping telemetry" ""
     false)) [mkmember "header" (TName "Cfe-tlm-header") None (Some (WC None [WI "primary" (VWith
     (WC None [WI "packet-identification" (VWith (WC None [WI "packet-version-number" (VInt 0) None;
     WI "packet-type-is-cmd" (VBool false) None; WI "sec-hdr-flag-is-present" (VBool true) None; WI
     "application-process-identifier" (VInt 153) None])) None])) None])); mkmember "payload" (TName
     "Payload-sandbox-hk-pc") None None];
   DSequence "Payload-sandbox-hk-pc" None [mkmember "cpu" (TName "Percent-range") (Some (mkcomment
     "CPU usage" "%" false)) None; mkmember "load1" (TName "Load-range") (Some (mkcomment
     "load from 1 minute average" "" false)) None; mkmember "load5" (TName "Load-range") (Some
     (mkcomment "load from 5 minutes average" "" false)) None; mkmember "load15" (TName
     "Load-range") (Some (mkcomment "load from 15 minutes average" "" false)) None; mkmember
     "total-ram" (TName "Uint64-t") (Some (mkcomment "total RAM" "byte" false)) None; mkmember
     "free-ram" (TName "Uint64-t") (Some (mkcomment "free RAM" "byte" false)) None; mkmember
     "free-swap" (TName "Uint64-t") (Some (mkcomment "free SWAP" "byte" false)) None]]);
  (mkmodule "simple-types" None [] None
  [DSimple "Real-range" (TReal (Some ((mkfloat (DFin true 4903985730770844 (-185)) "-1e-40"),
     (mkfloat (DFin false 8271806125530277 (80)) "1e+40")))) None;
   DSimple "Uint3" (TInteger (Some (0, 7))) None;
   DSimple "Uint11" (TInteger (Some (0, 2047))) None;
   DSimple "Uint14" (TInteger (Some (0, 16383))) None;
   DSimple "Uint8-t" (TInteger (Some (0, 255))) None;
   DSimple "Uint16-t" (TInteger (Some (0, 65535))) None;
   DSimple "Uint32-t" (TInteger (Some (0, 4294967295))) None;
   DSimple "Uint64-t" (TInteger (Some (0, 18446744073709551615))) None])].

Definition sample_names : list string :=
  ["ccsds-headers"; "cfe-headers"; "sandbox-hk-pc"; "simple-types"].

Lemma sample_grammatical : Forall (fun m => grammatical m = true) sample_modules.
Proof. repeat constructor; vm_compute; reflexivity. Qed.

(** Integer members of all kinds. *)
Definition integer_module : module :=
  mkmodule "m" None [] None
    [DSimple "Int16-t" (TInteger (Some (-32768, 32767))) None;
     DSimple "Uint8-t" (TInteger (Some (0, 255))) None;
     DSimple "Angle" (TInteger (Some (-100, 100))) None;
     DSimple "Count" (TInteger (Some (0, 1000))) None;
     DSequence "S" None
       [mkmember "a" (TName "Int16-t") None None; mkmember "b" (TName "Uint8-t") None None;
        mkmember "c" (TName "Angle") None None; mkmember "d" (TName "Count") None None;
        mkmember "e" (TInteger (Some (5, 9))) None None;
        mkmember "f" (TInteger (Some (-40000, 9))) None None]].

Lemma integer_grammatical : Forall (fun m => grammatical m = true) [integer_module].
Proof. repeat constructor; vm_compute; reflexivity. Qed.
