(** * Property C99: generated headers can be included on their own *)
From Verif Require Import Base PyNum PyStr Ast CCommon Main Spec_Check Spec_Grammar Spec_Bundle Spec_Gen Spec_Header Spec_Valid Spec_Unit
  Unit_proofs Unit2_proofs.
Open Scope string_scope.

(** C99.  Full statement: whichever generated headers a file includes, it gets
    the declarations of these modules and of all modules they need, each once,
    and each after those of the modules it imports from.  It holds of the cfs
    command: *)
Theorem C99_unit_partial : forall names fuel input fs fs' roots, Forall (fun m => grammatical m = true) input ->
  run fuel (GenerateCfs names) input fs = (fs', Ok tt) -> incl roots input ->
  (forall m, needed input roots m -> quiet m) ->
  exists ms hs g, reads fs' [] (includes_of (GenerateCfs names) roots) hs g
    /\ (forall hs' g', reads fs' [] (includes_of (GenerateCfs names) roots) hs' g' -> hs' = hs)
    /\ Forall2 (header_of (GenerateCfs names) fs') ms hs
    /\ NoDup ms /\ (forall m, In m ms <-> needed input roots m) /\ imports_first input ms.
Proof. exact cfs_unit. Qed.
Print Assumptions C99_unit_partial.

(** What comes out is valid C, as far as names, types and fields go, exactly if
    the definitions of these modules are fit for it, if no SEQUENCE, ENUMERATED
    or CHOICE has a name such as Uint8-t. *)
Theorem C99_valid_partial : forall names fuel input fs fs' roots hs g ms, Forall (fun m => grammatical m = true) input ->
  run fuel (GenerateCfs names) input fs = (fs', Ok tt) -> incl roots input -> (forall m, needed input roots m -> quiet m) ->
  (forall d, In d (definitions input) -> is_simple d = false -> ~ In (def_name d) (map fst POSIX_NAMES)) ->
  reads fs' [] (includes_of (GenerateCfs names) roots) hs g ->
  NoDup ms -> (forall m, In m ms <-> needed input roots m) ->
  (valid_unit hs <->
   distinct_names (GenerateCfs names) (definitions ms)
   /\ Forall (fit_for_c (GenerateCfs names) (definitions input)) (definitions ms)).
Proof. exact cfs_unit_valid. Qed.
Print Assumptions C99_valid_partial.

(** It fails of the c and binary commands as soon as a module imports anything:
    in a folder without files that have the bare names of modules, headers can
    be included exactly if their modules have no imports. *)
Theorem C99_no_imports : forall names cmd fuel input fs fs', config_command names cmd -> (forall ns, cmd <> GenerateCfs ns) ->
  Forall (fun m => grammatical m = true) input -> run fuel cmd input fs = (fs', Ok tt) ->
  (forall m, In m input -> folder_get fs (c_name (mod_name m)) = None) ->
  forall roots, incl roots input -> Forall quiet roots ->
  ((exists hs g, reads fs' [] (includes_of cmd roots) hs g) <-> Forall (fun m => mod_imports m = []) roots).
Proof. exact c_unit_iff. Qed.
Print Assumptions C99_no_imports.

(** A diamond of imports. *)
Definition bottom : module :=
  mkmodule "base-types" None [] None
    [DSimple "Level" (TInteger (Some (0, 5)%Z)) None; DEnumerated "Mode" None [mkenum "off" None None; mkenum "on" None None]].
Definition left_one : module :=
  mkmodule "left" None [mkimport ["Level"] "base-types" None] None
    [DSequence "Tank" None [mkmember "level" (TName "Level") None None]].
Definition right_one : module :=
  mkmodule "right" None [mkimport ["Mode"] "base-types" None] None
    [DSequence "Pump" None [mkmember "mode" (TName "Mode") None None; mkmember "label" (TString IA5String 8) None None]].
Definition top : module :=
  mkmodule "top" None [mkimport ["Pump"] "right" None; mkimport ["Tank"] "left" None] None
    [DSequence "System" None [mkmember "tank" (TName "Tank") None None; mkmember "pumps" (TArray 2 (TName "Pump")) None None]].
Definition other : module := mkmodule "other" None [] None [DSequence "Other" None [mkmember "x" TBoolean None None]].
Definition units : list module := [top; other; left_one; bottom; right_one].
Definition unit_names : list string := ["top"; "other"; "left"; "base-types"; "right"].

Lemma units_needed : forall m, In m [bottom; right_one; left_one; top] <-> needed units [top; left_one] m.
Proof.
  intros m. split.
  - assert (T : needed units [top; left_one] top) by (constructor; left; reflexivity).
    assert (R : needed units [top; left_one] right_one).
    { apply needed_import with top; [exact T|simpl; tauto|]. eexists. split; [left; reflexivity|reflexivity]. }
    assert (B : needed units [top; left_one] bottom).
    { apply needed_import with right_one; [exact R|simpl; tauto|]. eexists. split; [left; reflexivity|reflexivity]. }
    assert (L : needed units [top; left_one] left_one) by (constructor; right; left; reflexivity).
    intros [<-|[<-|[<-|[<-|[]]]]]; assumption.
  - intros N. induction N as [m [<-|[<-|[]]]|m im N IH Him (it & Hit & En)]; [simpl; tauto|simpl; tauto|].
    simpl in IH. destruct IH as [<-|[<-|[<-|[<-|[]]]]]; simpl in Hit; try contradiction;
      repeat (destruct Hit as [<-|Hit]; [simpl in Him; repeat (destruct Him as [<-|Him]; [try discriminate En; simpl; tauto|]); destruct Him|]);
      destruct Hit.
Qed.

Definition header_text (fs : folder) (m : module) : option header :=
  match folder_get fs (header_name (GenerateCfs unit_names) (mod_name m)) with Some t => read_header t | None => None end.

Example C99_sample : exists fs', Forall (fun m => grammatical m = true) units
  /\ run 9 (GenerateCfs unit_names) units [] = (fs', Ok tt) /\ incl [top; left_one] units
  /\ (forall m, needed units [top; left_one] m -> quiet m)
  /\ (forall d, In d (definitions units) -> is_simple d = false -> ~ In (def_name d) (map fst POSIX_NAMES))
  /\ NoDup [bottom; right_one; left_one; top]
  /\ exists hs, map Some hs = map (header_text fs') [bottom; right_one; left_one; top]
  /\ map (fun h => map scope_names (h_decls h)) hs = [[["Mode"; "off"; "on"]]; [["Pump"]]; [["Tank"]]; [["System"]]]
  /\ exists g, reads fs' [] (includes_of (GenerateCfs unit_names) [top; left_one]) hs g.
Proof.
  eexists. split; [repeat constructor|]. split; [vm_compute; reflexivity|].
  split; [intros x [<-|[<-|[]]]; simpl; tauto|].
  split; [intros m N; apply units_needed in N; destruct N as [<-|[<-|[<-|[<-|[]]]]]; repeat constructor|].
  split; [intros d Hd _; simpl in Hd; repeat (destruct Hd as [<-|Hd]; [simpl; intuition discriminate|]); destruct Hd|].
  split; [repeat constructor; simpl; intuition discriminate|].
  eexists (_ :: _ :: _ :: _ :: nil). split; [vm_compute; reflexivity|]. split; [reflexivity|]. eexists.
  unfold includes_of. cbn [map].
  eapply (read_first _ _ _ _ _ _ [_; _; _] _ []); [vm_compute; reflexivity|vm_compute; reflexivity|intros []| |].
  - cbn [h_includes h_guard].
    eapply (read_first _ _ _ _ _ _ [_] _ [_]); [vm_compute; reflexivity|vm_compute; reflexivity|cbn; intuition discriminate| |].
    + cbn [h_includes h_guard].
      eapply (read_first _ _ _ _ _ _ [] _ []); [vm_compute; reflexivity|vm_compute; reflexivity|cbn; intuition discriminate| |]; cbn; repeat constructor.
    + eapply (read_first _ _ _ _ _ _ [] _ []); [vm_compute; reflexivity|vm_compute; reflexivity|cbn; intuition discriminate| |constructor].
      cbn. repeat constructor. eapply read_again; [vm_compute; reflexivity|vm_compute; reflexivity|cbn; tauto|constructor].
  - eapply read_again; [vm_compute; reflexivity|vm_compute; reflexivity|cbn; tauto|constructor].
Qed.

(** Its definitions are fit for C. *)
Example C99_fit : distinct_names (GenerateCfs unit_names) (definitions [bottom; right_one; left_one; top])
  /\ Forall (fit_for_c (GenerateCfs unit_names) (definitions units)) (definitions [bottom; right_one; left_one; top]).
Proof.
  split.
  - split; [repeat constructor; simpl; intuition discriminate|]. split; [|intros (ns & E); discriminate E].
    intros d Hd Hv. simpl in Hd.
    repeat (destruct Hd as [<-|Hd]; [simpl in Hv; try contradiction; destruct Hv as [(ns & E) _]; discriminate E|]). destruct Hd.
  - assert (K : forall n t, element t = TName n -> In n ["Level"; "Mode"; "Tank"; "Pump"] -> has_known_type (definitions units) t).
    { intros n t E Hn q Eq _. rewrite E in Eq. injection Eq as <-. simpl in Hn.
      repeat (destruct Hn as [<-|Hn]; [split; [intros c l H|intros t' c H]; simpl in H;
        repeat (destruct H as [H|H]; [try discriminate H; injection H as <- <-; eauto|]); destruct H|]). destruct Hn. }
    assert (F : forall n t, element t = TName n -> In n ["Level"; "Mode"; "Tank"; "Pump"] ->
      (t = TName n \/ t = TArray 2 (TName n) /\ n = "Pump") -> fits (definitions units) t).
    { intros n t E Hn T. split; [destruct T as [->|(-> & _)]; [exact I|lia]|].
      split; [intros w (lo & hi & X & _); destruct T as [->|(-> & _)]; discriminate X|]. split; [|split].
      - intros q t' c w Eq Hd _ (lo & hi & X & _ & _ & _ & L). rewrite E in Eq. injection Eq as <-. simpl in Hd.
        repeat (destruct Hd as [Hd|Hd]; [try discriminate Hd|]); [|destruct Hd]. injection Hd as <- <- <-. injection X as <- <-.
        destruct T as [->|(_ & X)]; [|discriminate X]. apply L; [lia|reflexivity].
      - intros q e Et. destruct T as [->|(-> & _)]; [discriminate Et|]. injection Et as <- <-. discriminate.
      - intros q c l Et Hd. destruct T as [->|(-> & _)]; [|discriminate Et]. injection Et as <-. simpl in Hd.
        repeat (destruct Hd as [Hd|Hd]; [try discriminate Hd; injection Hd as <- <- <-; simpl; lia|]). destruct Hd. }
    assert (S : fits (definitions units) (TString IA5String 8) /\ has_known_type (definitions units) (TString IA5String 8)).
    { split; [|intros n X; discriminate X]. split; [lia|]. split; [intros w (lo & hi & X & _); discriminate X|].
      split; [intros n t' c w X; discriminate X|]. split; intros; discriminate. }
    destruct S as [S1 S2].
    assert (KM : forall d, In d (definitions [bottom; right_one; left_one; top]) ->
      forall k, In k (members_of d) -> has_known_type (definitions units) (m_type k) /\ fits (definitions units) (m_type k)).
    { intros d Hd k Hk. simpl in Hd. destruct Hd as [<-|[<-|[<-|[<-|[<-|[]]]]]]; simpl in Hk.
      - destruct Hk.
      - destruct Hk.
      - destruct Hk as [<-|[<-|[]]]; [|split; assumption]. split; [apply (K "Mode")|apply (F "Mode")]; simpl; tauto.
      - destruct Hk as [<-|[]]. split; [apply (K "Level")|apply (F "Level")]; simpl; tauto.
      - destruct Hk as [<-|[<-|[]]]; (split; [eapply K|eapply F]); try reflexivity; simpl; tauto. }
    apply Forall_forall. intros d Hd. split; [|split; [|split]].
    + assert (X := KM d Hd). simpl in Hd. repeat (destruct Hd as [<-|Hd]; [try exact I; apply Forall_forall; intros k Hk; apply X, Hk|]). destruct Hd.
    + simpl in Hd. repeat (destruct Hd as [<-|Hd]; [repeat constructor; simpl; intuition discriminate|]). destruct Hd.
    + simpl in Hd. repeat (destruct Hd as [<-|Hd]; [split; [repeat constructor; simpl; intuition discriminate|intros _; simpl; intuition discriminate]|]).
      destruct Hd.
    + intros n c l k -> Hk. apply (KM _ Hd k Hk).
Qed.

(** The same modules, for command c: one header can be included, another one
    cannot. *)
Theorem C99_unit_refuted : exists fs', run 9 (GenerateC unit_names) units [] = (fs', Ok tt)
  /\ Forall (fun m => grammatical m = true) units /\ Forall quiet units
  /\ (exists hs g, reads fs' [] (includes_of (GenerateC unit_names) [other; bottom]) hs g)
  /\ ~ exists hs g, reads fs' [] (includes_of (GenerateC unit_names) [top]) hs g.
Proof.
  assert (G : Forall (fun m => grammatical m = true) units) by repeat constructor.
  assert (Q : Forall quiet units) by repeat constructor.
  eexists. match goal with |- ?R = _ /\ _ => let r := eval vm_compute in R in assert (HR : R = r) by (vm_compute; reflexivity) end.
  split; [exact HR|]. split; [exact G|]. split; [exact Q|].
  assert (X := C99_no_imports unit_names (GenerateC unit_names) 9 units [] _ (or_intror (or_introl eq_refl)) ltac:(discriminate) G HR
    (fun _ _ => eq_refl)).
  split.
  - apply X; [intros x [<-|[<-|[]]]; simpl; tauto| |]; repeat constructor.
  - intros H. apply X in H; [inversion H; discriminate|intros x [<-|[]]; simpl; tauto|repeat constructor].
Qed.
Print Assumptions C99_unit_refuted.
