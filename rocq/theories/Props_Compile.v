(** * Property C101: when a generated C source compiles *)
From Verif Require Import Base PyNum PyStr Ast CCommon Main Spec_Check Spec_Grammar Spec_Bundle Spec_Gen Spec_C Spec_Header Spec_Valid Spec_Init Spec_Place
  Spec_Unit Spec_Compile Place_proofs Compile_proofs.
Open Scope string_scope.

(** C101.  The .c file of a module whose comments are quiet (C57), and in which
    no SEQUENCE, ENUMERATED or CHOICE has a name such as Uint8-t, consists of a
    head, includes and one variable for each WITH COMPONENTS clause.  It
    compiles, as far as names, types, fields and initialisers go, exactly if the
    module has no such clause, or if the last definition written that is no
    simple type has one, the module has no imports, its definitions are fit for
    C and so are its clauses.  The folder had no file with the bare name of a
    module before. *)
Theorem C101_compiles : forall names fuel input fs fs' m, Forall (fun m => grammatical m = true) input ->
  run fuel (GenerateC names) input fs = (fs', Ok tt) -> In m input -> quiet m ->
  (forall d, In d (mod_defs m) -> is_simple d = false -> ~ In (def_name d) (map fst POSIX_NAMES)) ->
  (forall m', In m' input -> folder_get fs (c_name (mod_name m')) = None) ->
  exists order includes texts, in_rounds m order
    /\ (ends_with_clause order /\ includes = [Local (c_name (mod_name m) ++ ".h")] \/ ~ ends_with_clause order /\ includes = [])
    /\ folder_get fs' (c_name (mod_name m) ++ ".c") = Some (source_head m ++ include_lines includes ++ String.concat "" texts)
    /\ Forall2 initialises (flat_map def_clauses order) texts
    /\ (compiles fs' includes texts <->
        flat_map def_clauses (mod_defs m) = []
        \/ (ends_with_clause order /\ mod_imports m = []
            /\ distinct_names (GenerateC names) (mod_defs m)
            /\ Forall (fit_for_c (GenerateC names) (mod_defs m)) (mod_defs m)
            /\ Forall (member_clause_fits (mod_defs m)) (flat_map def_clauses (mod_defs m)))).
Proof. exact source_compiles. Qed.
Print Assumptions C101_compiles.

(** Two modules; the second imports from the first and has a clause too. *)
Definition clause : wcomps := WC None [WI "x" (VInt (-3)) None; WI "mode" (VInt 1) None].
Definition frames : module :=
  mkmodule "the-frames" None [] None
    [DEnumerated "Mode" None [mkenum "off" None None; mkenum "on" None None];
     DSequence "Point" None [mkmember "x" (TInteger (Some (-9, 9)%Z)) None None; mkmember "mode" (TName "Mode") None None];
     DSequence "Frame" None [mkmember "part" (TName "Point") None (Some clause)]].
Definition user : module :=
  mkmodule "user" None [mkimport ["Point"] "the-frames" None] None
    [DSequence "Pair" None [mkmember "left" (TName "Point") None (Some clause); mkmember "right" (TName "Point") None None]].

Lemma frames_clauses : Forall (member_clause_fits (mod_defs frames)) (flat_map def_clauses (mod_defs frames)).
Proof.
  constructor; [|constructor]. do 3 eexists. split; [do 2 right; left; reflexivity|]. split; [left; reflexivity|]. split; [reflexivity|].
  econstructor; [right; left; reflexivity|vm_compute; intuition discriminate|].
  intros k v kc [E|[E|[]]]; injection E as <- <- <-.
  - eexists. split; [left; reflexivity|]. split; [reflexivity|]. right. split; [exact I|reflexivity].
  - eexists. split; [right; left; reflexivity|]. split; [reflexivity|]. right. split; [right; left; do 2 eexists; left; reflexivity|reflexivity].
Qed.

Lemma frames_fit : forall ns, distinct_names (GenerateC ns) (mod_defs frames) /\ Forall (fit_for_c (GenerateC ns) (mod_defs frames)) (mod_defs frames).
Proof.
  intros ns. split.
  - split; [repeat constructor; simpl; intuition discriminate|]. split.
    + intros d Hd _. simpl in Hd. destruct Hd as [<-|[<-|[<-|[]]]]; simpl; intuition discriminate.
    + intros _ n c l Hd. simpl in Hd. destruct Hd as [E|[E|[E|[]]]]; try discriminate E; injection E as <- <- <-; simpl; lia.
  - assert (K : forall n, In n ["Mode"; "Point"] -> has_known_type (mod_defs frames) (TName n) /\ fits (mod_defs frames) (TName n)).
    { intros n Hn. split.
      - intros q Eq _. injection Eq as <-. split; [intros c l H|intros t' c H]; simpl in H; intuition discriminate.
      - split; [exact I|]. split; [intros w (lo & hi & X & _); discriminate X|]. split; [|split].
        + intros q t' c w Eq Hd. simpl in Hd. intuition discriminate.
        + intros q e Et. discriminate Et.
        + intros q c l Et Hd. simpl in Hd. destruct Hd as [E|[E|[E|[]]]]; try discriminate E. injection E as <- <- <-. simpl. lia. }
    assert (K1 : has_known_type (mod_defs frames) (TInteger (Some (-9, 9)%Z)) /\ fits (mod_defs frames) (TInteger (Some (-9, 9)%Z))).
    { split; [intros n X; discriminate X|]. split; [exact I|]. split; [intros w (lo & hi & X & Y & _); injection X as <- <-; lia|].
      split; [intros n t' c w X; discriminate X|]. split; intros; discriminate. }
    assert (KM : forall d, In d (mod_defs frames) -> forall k, In k (members_of d) ->
      has_known_type (mod_defs frames) (m_type k) /\ fits (mod_defs frames) (m_type k)).
    { intros d Hd k Hk. simpl in Hd. destruct Hd as [<-|[<-|[<-|[]]]]; simpl in Hk.
      - destruct Hk.
      - destruct Hk as [<-|[<-|[]]]; [exact K1|apply K; simpl; tauto].
      - destruct Hk as [<-|[]]. apply K. simpl. tauto. }
    apply Forall_forall. intros d Hd. split; [|split; [|split]].
    + assert (X := KM d Hd). simpl in Hd. destruct Hd as [<-|[<-|[<-|[]]]]; try exact I; apply Forall_forall; intros k Hk; apply X, Hk.
    + simpl in Hd. destruct Hd as [<-|[<-|[<-|[]]]]; repeat constructor; simpl; intuition discriminate.
    + simpl in Hd. destruct Hd as [<-|[<-|[<-|[]]]]; (split; [repeat constructor; simpl; intuition discriminate|intros _; simpl; intuition discriminate]).
    + intros n c l k -> Hk. apply (KM _ Hd k Hk).
Qed.

(** The source of the first compiles, that of the second does not. *)
Example C101_sample : exists fs', Forall (fun m => grammatical m = true) [frames; user]
  /\ run 9 (GenerateC ["the-frames"; "user"]) [frames; user] [] = (fs', Ok tt) /\ Forall quiet [frames; user]
  /\ (exists text, folder_get fs' "the_frames.c" = Some (source_head frames ++ include_lines [Local "the_frames.h"] ++ text)
        /\ compiles fs' [Local "the_frames.h"] [text])
  /\ exists text, folder_get fs' "user.c" = Some (source_head user ++ include_lines [Local "user.h"] ++ text)
        /\ ~ compiles fs' [Local "user.h"] [text].
Proof.
  assert (G : Forall (fun m => grammatical m = true) [frames; user]) by repeat constructor.
  assert (Q : Forall quiet [frames; user]) by repeat constructor.
  eexists. match goal with |- _ /\ ?R = _ /\ _ => let r := eval vm_compute in R in assert (HR : R = r) by (vm_compute; reflexivity) end.
  split; [exact G|]. split; [exact HR|]. split; [exact Q|]. rewrite Forall_forall in Q.
  assert (NP : forall m d, In m [frames; user] -> In d (mod_defs m) -> is_simple d = false -> ~ In (def_name d) (map fst POSIX_NAMES)).
  { intros m d [<-|[<-|[]]] Hd _; simpl in Hd; repeat (destruct Hd as [<-|Hd]; [simpl; intuition discriminate|]); destruct Hd. }
  assert (X := fun m Hm => C101_compiles _ _ _ _ _ m G HR Hm (Q m Hm) (fun d => NP m d Hm) (fun _ _ => eq_refl)).
  split.
  - destruct (X frames (or_introl eq_refl)) as (order & includes & texts & O & Inc & E & F & C).
    assert (Eo : order = mod_defs frames).
    { apply (order_kept _ _ O). intros i d j d' Hi Hj (k & Hk & Ek & _).
      destruct i as [|[|[|i]]]; [| | |destruct i; discriminate Hi]; injection Hi as <-; cbn in Hk.
      - destruct Hk.
      - destruct Hk as [<-|[<-|[]]]; [discriminate Ek|]. injection Ek as Ek. destruct j as [|[|[|j]]]; [lia| | |destruct j; discriminate Hj]; injection Hj as <-; discriminate Ek.
      - destruct Hk as [<-|[]]. injection Ek as Ek. destruct j as [|[|[|j]]]; [lia|lia| |destruct j; discriminate Hj]; injection Hj as <-; discriminate Ek. }
    assert (En : ends_with_clause order).
    { rewrite Eo. do 2 eexists. exists []. split; [apply (app_removelast_last (DSimple "" TBoolean None)); discriminate|]. split; [discriminate|constructor]. }
    destruct Inc as [(_ & ->)|(N & _)]; [|contradiction]. rewrite Eo in F. inversion F as [|? t ? ? _ F0]; subst. inversion F0; subst.
    exists t. split; [exact E|]. apply C. right. split; [exact En|]. split; [reflexivity|]. split; [apply frames_fit|]. split; [apply frames_fit|apply frames_clauses].
  - destruct (X user (or_intror (or_introl eq_refl))) as (order & includes & texts & O & Inc & E & F & C).
    assert (Eo : order = mod_defs user).
    { apply (order_kept _ _ O). intros i d j d' Hi Hj (k & Hk & Ek & _).
      destruct i as [|i]; [|destruct i; discriminate Hi]. injection Hi as <-. destruct j as [|j]; [|destruct j; discriminate Hj]. injection Hj as <-.
      destruct Hk as [<-|[<-|[]]]; discriminate Ek. }
    assert (En : ends_with_clause order).
    { rewrite Eo. exists [], (nth 0 (mod_defs user) (DSimple "" TBoolean None)), []. split; [reflexivity|]. split; [discriminate|constructor]. }
    destruct Inc as [(_ & ->)|(N & _)]; [|contradiction]. rewrite Eo in F. inversion F as [|? t ? ? _ F0]; subst. inversion F0; subst.
    exists t. split; [exact E|]. intros H. apply C in H. destruct H as [H|(_ & H & _)]; discriminate H.
Qed.
