(** * Properties C33 and C66 to C68: the generated headers as C *)
From Coq Require Import Permutation Lia.
From Verif Require Import Base PyNum PyStr Ast Bundle CCommon Main Spec_Grammar Spec_Check Spec_Enum Spec_Bundle Spec_Gen Spec_C Spec_Header Spec_Valid
  Valid_proofs.
Open Scope string_scope.

(** C66.  Full statement: a file that includes the headers of some modules
    declares no identifier twice, and no struct or union has two fields of the
    same name.  It holds exactly if the keys are different in the way
    [distinct_names] says, which the tool does not check.  Missing for C66:
    modules without it, for which it fails, see below. *)
Theorem C66_declared_once_partial : forall names cmd fuel input fs fs' ms rest hs, config_command names cmd ->
  Forall (fun m => grammatical m = true) input -> run fuel cmd input fs = (fs', Ok tt) ->
  Permutation input (ms ++ rest) -> Forall quiet ms -> Forall2 (header_of cmd fs') ms hs ->
  (NoDup (flat_map scope_names (flat_map h_decls hs)) <-> distinct_names cmd (definitions ms)).
Proof. exact names_declared_once. Qed.
Print Assumptions C66_declared_once_partial.

Theorem C66_fields_once_partial : forall names cmd fuel input fs fs' m h, config_command names cmd ->
  Forall (fun m => grammatical m = true) input -> run fuel cmd input fs = (fs', Ok tt) -> In m input -> quiet m ->
  header_of cmd fs' m h ->
  (Forall (fun x => NoDup (field_names x)) (h_decls h) <-> Forall (fun d => NoDup (member_keys d)) (mod_defs m)).
Proof. exact fields_distinct. Qed.
Print Assumptions C66_fields_once_partial.

(** C67.  Full statement: no declared identifier is a keyword of C.  It holds
    exactly if no key is one, and no definition with a variable has the name of
    one but for the capital, which the tool does not check.  Missing for C67:
    modules with such keys, see below. *)
Theorem C67_no_keyword_partial : forall names cmd fuel input fs fs' m h, config_command names cmd ->
  Forall (fun m => grammatical m = true) input -> run fuel cmd input fs = (fs', Ok tt) -> In m input -> quiet m ->
  header_of cmd fs' m h ->
  (Forall (fun s => ~ In s C_KEYWORDS) (flat_map declared_names (h_decls h)) <-> Forall (no_keywords cmd) (mod_defs m)).
Proof. exact keywords_avoided. Qed.
Print Assumptions C67_no_keyword_partial.

(** C68.  Full statement: the bit-fields and arrays of every struct are valid
    C ([valid_field]).  It holds, if no SEQUENCE, ENUMERATED or CHOICE has a
    name such as Uint8-t, exactly of members with types that fit ([fits]).
    Missing for C68: other types, for which it fails, see below. *)
Theorem C68_valid_fields_partial : forall names cmd fuel input fs fs' m h, config_command names cmd ->
  Forall (fun m => grammatical m = true) input -> run fuel cmd input fs = (fs', Ok tt) -> In m input -> quiet m ->
  header_of cmd fs' m h ->
  (forall d, In d (definitions input) -> is_simple d = false -> ~ In (def_name d) (map fst POSIX_NAMES)) ->
  (Forall valid_fields (h_decls h) <->
   forall n c l k, In (DSequence n c l) (mod_defs m) -> In k l -> fits (definitions input) (m_type k)).
Proof. exact fields_valid. Qed.
Print Assumptions C68_valid_fields_partial.

(** C33, of the text of the headers: after the headers of the modules it
    imports, the header of a module uses only types declared by then, exactly
    if its members have types that become types of C ([known_members]). *)
Theorem C33_header_types_partial : forall names cmd fuel input fs fs' m h, config_command names cmd ->
  Forall (fun m => grammatical m = true) input -> run fuel cmd input fs = (fs', Ok tt) -> In m input -> quiet m ->
  header_of cmd fs' m h ->
  forall ims ihs, incl ims input ->
  (forall im it, In im input -> In it (mod_imports m) -> imp_module it = mod_name im -> In im ims) ->
  Forall quiet ims -> Forall2 (header_of cmd fs') ims ihs ->
  (types_known (flat_map h_decls ihs) h <-> Forall (known_members (definitions input)) (mod_defs m)).
Proof. exact header_types_iff. Qed.
Print Assumptions C33_header_types_partial.

(** Two modules, for which everything holds. *)
Definition lower_module : module :=
  mkmodule "lower-types" None [] None
    [DSimple "Uint16-t" (TInteger (Some (0, 65535)%Z)) None; DSimple "Level" (TInteger (Some (0, 5)%Z)) None;
     DEnumerated "Mode" None [mkenum "off" None None; mkenum "on" None None; mkenum "safe" None None]].
Definition upper_module : module :=
  mkmodule "upper" None [mkimport ["Uint16-t"; "Mode"; "Level"] "lower-types" None] None
    [DSequence "Outer" None
       [mkmember "inner" (TName "Inner") None (Some (WC None [WI "count" (VInt 3) None]));
        mkmember "modes" (TArray 4 (TName "Mode")) None None; mkmember "ids" (TArray 3 (TName "Uint16-t")) None None];
     DSequence "Inner" None
       [mkmember "count" (TInteger (Some (0, 300)%Z)) None None; mkmember "level" (TName "Level") None None;
        mkmember "mode" (TName "Mode") None None; mkmember "name" (TString IA5String 8) None None; mkmember "on" TBoolean None None];
     DChoice "Either" None [mkmember "a" (TName "Inner") None None; mkmember "b" (TName "Outer") None None]].

Definition header_in (fs : folder) (n : string) (h : header) : Prop :=
  exists text, folder_get fs n = Some text /\ read_header text = Some h.

Example C66_sample : exists fs' hl hu,
  let cmd := GenerateC ["lower-types"; "upper"] in
  config_command ["lower-types"; "upper"] cmd
  /\ Forall (fun m => grammatical m = true) [upper_module; lower_module]
  /\ run 9 cmd [upper_module; lower_module] [] = (fs', Ok tt)
  /\ quiet lower_module /\ quiet upper_module
  /\ header_of cmd fs' lower_module hl /\ header_of cmd fs' upper_module hu
  /\ flat_map scope_names (h_decls hl) = ["Mode"; "off"; "on"; "safe"]
  /\ flat_map scope_names (h_decls hu) = ["Inner"; "Outer"; "either"; "outer"]
  /\ map field_names (h_decls hu) = [["count"; "level"; "mode"; "name"; "on"]; ["inner"; "modes"; "ids"]; ["a"; "b"]; []]
  /\ distinct_names cmd (definitions [lower_module; upper_module])
  /\ Forall (no_keywords cmd) (mod_defs upper_module).
Proof.
  do 3 eexists. cbv zeta. split; [right; left; reflexivity|]. split; [repeat constructor|].
  split; [vm_compute; reflexivity|]. split; [repeat constructor|]. split; [repeat constructor|].
  split; [eexists; split; vm_compute; reflexivity|]. split; [eexists; split; vm_compute; reflexivity|].
  split; [reflexivity|]. split; [reflexivity|]. split; [reflexivity|]. split.
  - split; [|split].
    + repeat constructor; simpl; intuition discriminate.
    + intros d Hd Hv. simpl in Hd. repeat (destruct Hd as [<-|Hd]; [simpl in *; try contradiction; intuition discriminate|]). destruct Hd.
    + intros _ n c l Hd. simpl in Hd. repeat (destruct Hd as [Hd|Hd]; [try discriminate Hd; injection Hd as <- <- <-; simpl; lia|]). destruct Hd.
  - apply Forall_forall. intros d Hd. split; [apply Forall_forall; intros k Hk|intros _];
      simpl in Hd; repeat (destruct Hd as [<-|Hd]; [simpl in *; intuition (subst; discriminate)|]); destruct Hd.
Qed.

(** Its members fit, and have known types. *)
Ltac find_def H := simpl in H; repeat (destruct H as [H|H]; [try discriminate H; try (injection H; intros; subst)|]); try contradiction.
Example C68_sample :
  (forall d, In d (definitions [upper_module; lower_module]) -> is_simple d = false -> ~ In (def_name d) (map fst POSIX_NAMES))
  /\ Forall (known_members (definitions [upper_module; lower_module])) (mod_defs upper_module)
  /\ fits (definitions [upper_module; lower_module]) (TArray 4 (TName "Mode"))
  /\ fits (definitions [upper_module; lower_module]) (TInteger (Some (0, 300)%Z))
  /\ fits (definitions [upper_module; lower_module]) (TName "Level").
Proof.
  split; [|split; [|split; [|split]]].
  - intros d Hd Hs. simpl in Hd. repeat (destruct Hd as [<-|Hd]; [try discriminate Hs; simpl; intuition discriminate|]). destruct Hd.
  - assert (K : forall n t, element t = TName n -> In n ["Inner"; "Mode"; "Level"; "Uint16-t"] ->
        has_known_type (definitions [upper_module; lower_module]) t).
    { intros n t E Hn q Eq NP. rewrite E in Eq. injection Eq as <-. simpl in Hn.
      repeat (destruct Hn as [<-|Hn]; [split; [intros c l H; find_def H|intros t' c H; find_def H; eauto]|]). destruct Hn. }
    assert (D : forall t, (forall n, element t <> TName n) -> has_known_type (definitions [upper_module; lower_module]) t).
    { intros t N q Hq. destruct (N q Hq). }
    apply Forall_forall. intros d Hd. simpl in Hd. destruct Hd as [<-|[<-|[<-|[]]]]; simpl; apply Forall_forall; intros k Hk; simpl in Hk.
    + repeat (destruct Hk as [<-|Hk]; [eapply K; [reflexivity|simpl; tauto]|]). destruct Hk.
    + repeat (destruct Hk as [<-|Hk]; [first [ eapply K; [reflexivity|simpl; tauto] | apply D; intros n; discriminate ]|]). destruct Hk.
    + destruct Hk as [<-|[<-|[]]]; right.
      * exists (nth 1 (mod_defs upper_module) (DSimple "" TNull None)). simpl. auto.
      * exists (nth 0 (mod_defs upper_module) (DSimple "" TNull None)). simpl. auto.
  - split; [lia|]. split; [intros w (lo & hi & X & _); discriminate|]. split; [|split; [intros n e X; injection X as <- <-; discriminate|discriminate]].
    intros n t' c w E H. injection E as <-. find_def H.
  - split; [exact I|]. split; [|split; [discriminate|split; discriminate]].
    intros w (lo & hi & X & _ & _ & _ & L). injection X as <- <-. apply L; [lia|reflexivity].
  - split; [exact I|]. split; [intros w (lo & hi & X & _); discriminate|]. split; [|split; [discriminate|]].
    + intros n t' c w E H _ (lo & hi & X & _ & _ & _ & L). injection E as <-. find_def H.
      injection H as <- <-. apply L; [lia|reflexivity].
    + intros n c l E H. injection E as <-. find_def H.
Qed.

(** Two enumerations with an item of the same key, an item and a variable of
    the same name, two clauses in a SEQUENCE, and two members of the same key:
    the tool accepts all of them. *)
Definition twice (ds : list definition) : module := mkmodule "m" None [] None ds.
Definition item (k : string) : enum_item := mkenum k None None.
Definition item_twice : module :=
  twice [DEnumerated "A" None [item "off"; item "on"]; DEnumerated "B" None [item "off"; item "low"]].
Definition item_variable : module :=
  twice [DEnumerated "A" None [item "either"; item "on"]; DSequence "S" None [mkmember "x" TBoolean None None];
         DChoice "Either" None [mkmember "a" (TName "S") None None]].
Definition member_twice : module :=
  twice [DSequence "S" None [mkmember "x" TBoolean None None; mkmember "x" (TString IA5String 3) None None]].
Definition clause_twice : module :=
  twice [DSequence "T" None [mkmember "a" TBoolean None None];
         DSequence "S" None [mkmember "x" (TName "T") None (Some (WC None [WI "a" (VBool true) None]));
                             mkmember "y" (TName "T") None (Some (WC None [WI "a" (VBool false) None]))]].

Ltac twice_tac := intros N; cbn in N; rewrite ?Forall_cons_iff in N; cbn in N; rewrite !NoDup_cons_iff in N; cbn in N; tauto.
Theorem C66_declared_once_refuted :
  (forall cmd, config_command ["m"] cmd ->
    (forall m, m = item_twice \/ m = item_variable -> exists fs' h, grammatical m = true /\ quiet m
       /\ run 9 cmd [m] [] = (fs', Ok tt) /\ header_of cmd fs' m h /\ ~ NoDup (flat_map scope_names (h_decls h)))
    /\ (exists fs' h, grammatical member_twice = true /\ quiet member_twice
       /\ run 9 cmd [member_twice] [] = (fs', Ok tt) /\ header_of cmd fs' member_twice h
       /\ ~ Forall (fun x => NoDup (field_names x)) (h_decls h)))
  /\ (exists fs' h, grammatical clause_twice = true /\ quiet clause_twice
       /\ run 9 (GenerateC ["m"]) [clause_twice] [] = (fs', Ok tt) /\ header_of (GenerateC ["m"]) fs' clause_twice h
       /\ ~ NoDup (flat_map scope_names (h_decls h))).
Proof.
  split; [intros cmd HC; split; [intros m [->| ->]|]|].
  1, 2, 3: destruct HC as [->|[->|([|] & ->)]].
  all: do 2 eexists; split; [reflexivity|]; split; [repeat constructor|]; split; [vm_compute; reflexivity|];
    split; [eexists; split; [vm_compute; reflexivity|vm_compute; reflexivity]|twice_tac].
Qed.
Print Assumptions C66_declared_once_refuted.

(** A member, an item and a CHOICE with the names of keywords. *)
Definition keyword_module : module :=
  twice [DSequence "S" None [mkmember "int" TBoolean None None]; DEnumerated "E" None [item "static"; item "extern"];
         DChoice "Union" None [mkmember "a" (TName "S") None None]].
Theorem C67_no_keyword_refuted : forall cmd, config_command ["m"] cmd ->
  exists fs' h, grammatical keyword_module = true /\ quiet keyword_module
    /\ run 9 cmd [keyword_module] [] = (fs', Ok tt) /\ header_of cmd fs' keyword_module h
    /\ forall w, In w ["int"; "static"; "extern"; "union"] -> In w C_KEYWORDS /\ In w (flat_map declared_names (h_decls h)).
Proof.
  intros cmd [->|[->|([|] & ->)]]; do 2 eexists; (split; [reflexivity|]); (split; [repeat constructor|]);
    (split; [vm_compute; reflexivity|]); (split; [eexists; split; vm_compute; reflexivity|]);
    intros w Hw; simpl in Hw; (split; [simpl; tauto|]); simpl; tauto.
Qed.
Print Assumptions C67_no_keyword_refuted.

(** An array of BOOLEAN, a simple type of three bits as element of an array,
    an enumeration with one item, an array without elements and an INTEGER of
    more than 64 bits. *)
Definition misfit : module :=
  twice [DSimple "Level" (TInteger (Some (0, 5)%Z)) None; DEnumerated "One" None [item "only"];
         DSequence "S" None [mkmember "flags" (TArray 3 TBoolean) None None; mkmember "levels" (TArray 3 (TName "Level")) None None;
                             mkmember "one" (TName "One") None None; mkmember "none" (TString IA5String 0) None None;
                             mkmember "big" (TInteger (Some (0, 2 ^ 70)%Z)) None None]].
Theorem C68_valid_fields_refuted : forall cmd, config_command ["m"] cmd ->
  exists fs' h fields, grammatical misfit = true /\ quiet misfit
    /\ run 9 cmd [misfit] [] = (fs', Ok tt) /\ header_of cmd fs' misfit h
    /\ In (XStruct true "S" fields) (h_decls h)
    /\ fields = [mkxfield ["uint8_t"] "flags" (Some 1%Z) (Some 3%Z); mkxfield ["uint8_t"] "levels" (Some 3%Z) (Some 3%Z);
                 mkxfield ["One"] "one" (Some 0%Z) None; mkxfield ["char"] "none" None (Some 0%Z);
                 mkxfield ["unsigned"; "long"; "long"] "big" (Some 71%Z) None]
    /\ Forall (fun f => ~ valid_field f) fields.
Proof.
  intros cmd HC. destruct HC as [->|[->|([|] & ->)]].
  all: do 3 eexists; split; [reflexivity|]; split; [repeat constructor|].
  all: split; [vm_compute; reflexivity|].
  all: split; [eexists; split; [vm_compute; reflexivity|vm_compute; reflexivity]|].
  all: split; [right; left; reflexivity|].
  all: split; [reflexivity|].
  all: apply Forall_cons; [intros [A _]; destruct (A _ eq_refl) as (X & _); discriminate X|].
  all: apply Forall_cons; [intros [A _]; destruct (A _ eq_refl) as (X & _); discriminate X|].
  all: apply Forall_cons; [intros [A _]; destruct (A _ eq_refl) as (_ & X & _); discriminate X|].
  all: apply Forall_cons; [intros [_ A]; specialize (A _ eq_refl); discriminate A|].
  all: apply Forall_cons; [|constructor].
  all: intros [A _]; destruct (A _ eq_refl) as (_ & _ & X); specialize (X 64%Z ltac:(simpl; tauto)); apply X; reflexivity.
Qed.
Print Assumptions C68_valid_fields_refuted.
