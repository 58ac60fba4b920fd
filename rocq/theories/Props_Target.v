(** * Property C107: the file of cosmos, letter by letter *)
From Verif Require Import Base PyNum PyStr Ast CCommon GenCosmos Main Spec_Grammar Spec_Check Spec_Bundle Spec_Cosmos Spec_History Spec_Target
  Target_proofs.
Open Scope string_scope.

(** C107.  After a finished run of cosmos the file of the target holds what it
    held before, followed by the one text Spec_Target describes; the other files
    are as before. *)
Theorem C107_folder : forall fuel mn msgs target input fs fs', Forall (fun m => grammatical m = true) input ->
  no_addresses input mn msgs ->
  run fuel (GenerateCosmos mn msgs target) input fs = (fs', Ok tt) ->
  forall f text, folder_get fs' f = Some text <->
    (f = target ++ ".txt" /\ exists new, is_telemetry input mn msgs target new /\ text = old_text fs f ++ new)
    \/ (f <> target ++ ".txt" /\ folder_get fs f = Some text).
Proof. exact target_exact. Qed.
Print Assumptions C107_folder.

(** No address is shown if clauses within clauses are given only to members
    with components: no other member has the key of such a clause. *)
Theorem C107_no_addresses : forall input mn msgs, NoDup (map def_name (definitions input)) ->
  (forall k w c d m, component_in (definitions input) (WI k (VWith w) c) -> In d (definitions input) -> In m (members_of d) -> m_key m = k ->
     exists n cm l, element (m_type m) = TName n /\ In (DSequence n cm l) (definitions input)) ->
  no_addresses input mn msgs.
Proof. exact addresses_avoided. Qed.
Print Assumptions C107_no_addresses.

(** A message with a clause in a clause. *)
Definition lines (l : list string) : string := String.concat "" (map (fun s => s ++ NL) l).
Definition target_module : module :=
  mkmodule "a-b" None [] None
    [DSequence "Msg" (Some (mkcomment "all" "" false))
       [mkmember "header" (TName "Hdr") None (Some (WC None [WI "detail" (VWith (WC None [WI "x" (VInt 5) None])) None]))];
     DSequence "Hdr" None [mkmember "detail" (TName "Det") None None; mkmember "mode" (TName "Mode") None None];
     DSequence "Det" None [mkmember "x" (TInteger (Some (0, 7)%Z)) (Some (mkcomment "width" "mm" true)) None];
     DEnumerated "Mode" None [mkenum "on" (Some 1%Z) None; mkenum "off" (Some 0%Z) None]].

Lemma target_avoids : no_addresses [target_module] "a-b" ["Msg"].
Proof.
  apply C107_no_addresses; [repeat constructor; cbn; intuition discriminate|].
  intros k w c d m (d0 & m0 & w0 & D0 & M0 & W0 & C) D M E.
  assert (k = "detail") as ->.
  { cbn in D0. destruct D0 as [<-|[<-|[<-|[<-|[]]]]]; cbn in M0; (repeat destruct M0 as [<-|M0]); try destruct M0; try discriminate W0.
    injection W0 as <-. inversion C as [w1 i1 J|w1 k1 w2 c1 i1 J C2]; subst.
    - destruct J as [J|[]]. injection J as -> _ _. reflexivity.
    - destruct J as [J|[]]. injection J as <- <- <-. inversion C2 as [w1 i1 J|w1 k1 w2 c1 i1 J C3]; subst; destruct J as [J|[]]; discriminate. }
  cbn in D. destruct D as [<-|[<-|[<-|[<-|[]]]]]; cbn in M; (repeat destruct M as [<-|M]); try destruct M; try discriminate E.
  exists "Det". do 2 eexists. split; [reflexivity|]. right. right. left. reflexivity.
Qed.

Example C107_sample : exists fs,
  Forall (fun m => grammatical m = true) [target_module] /\ no_addresses [target_module] "a-b" ["Msg"]
  /\ run 9 (GenerateCosmos "a-b" ["Msg"] "sat") [target_module] [("sat.txt", "old"); ("x", "y")] = (fs, Ok tt)
  /\ folder_get fs "x" = Some "y"
  /\ is_telemetry [target_module] "a-b" ["Msg"] "sat" (lines
       ["# This file was autogenerated from ASN.1 model."; "";
        "TELEMETRY sat Msg BIG_ENDIAN ""all""";
        "    APPEND_ID_ITEM      x                                     3 UINT          5 ""width"" LITTLE_ENDIAN";
        "        UNITS mm mm";
        "    APPEND_ITEM         mode                                  1 UINT            """"";
        "        STATE off                             0";
        "        STATE on                              1"]).
Proof.
  eexists. assert (G : Forall (fun m => grammatical m = true) [target_module]) by (repeat constructor).
  split; [exact G|]. split; [exact target_avoids|]. split; [vm_compute; reflexivity|]. split; [vm_compute; reflexivity|].
  assert (R := target_exact 9 "a-b" ["Msg"] "sat" [target_module] [] _ G target_avoids eq_refl "sat.txt").
  match goal with |- is_telemetry _ _ _ _ ?t => destruct (proj1 (R t)) as [(_ & new & T & E)|(N & _)] end.
  - vm_compute. reflexivity.
  - rewrite E. exact T.
  - destruct N. reflexivity.
Qed.
