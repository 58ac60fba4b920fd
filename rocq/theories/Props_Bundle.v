(** * Property theorems: what bundles are accepted (C16-C21, C47, C50) *)
From Coq Require Import Sorted.
From Verif Require Import Base PyNum Ast Size Processor Bundle CCommon GenCfs Samples
  Spec_Enum Spec_Num Spec_Check Spec_Grammar Spec_Bundle Check_proofs Bundle_proofs Note_proofs.
Open Scope string_scope.

(** C50: the cfs, c and binary commands accept exactly the valid bundles. *)
Theorem C50_bundle_accepted_iff : forall names input,
  Forall (fun m => grammatical m = true) input ->
  ((exists b, build_from_config names input = Ok b) <-> bundle_valid names input).
Proof. exact bundle_accepted_iff. Qed.
Print Assumptions C50_bundle_accepted_iff.

(** The cosmos command, for distinct module names. *)
Theorem C50_cosmos_accepted_iff : forall input,
  Forall (fun m => grammatical m = true) input -> NoDup (map mod_name input) ->
  ((exists b, build_from_cosmos_config input = Ok b) <->
   Forall module_valid input /\ imports_resolve input /\ clauses_valid (definitions input)
   /\ NoDup (map def_name (definitions input))).
Proof. exact cosmos_accepted_iff. Qed.
Print Assumptions C50_cosmos_accepted_iff.

(** The hypotheses are met by the sample bundle, which both accept. *)
Example C50_sample :
  Forall (fun m => grammatical m = true) sample_modules
  /\ (exists b, build_from_config sample_names sample_modules = Ok b)
  /\ (exists b, build_from_cosmos_config sample_modules = Ok b).
Proof.
  split; [exact sample_grammatical|].
  split; eexists; vm_compute; reflexivity.
Qed.

(** C16: imports resolve (cfs, c, binary), *)
Theorem C16_imports_resolve : forall names input b m it,
  Forall (fun m => grammatical m = true) input -> build_from_config names input = Ok b ->
  In m input -> In it (mod_imports m) ->
  exists im, In im input /\ mod_name im = imp_module it
    /\ incl (imp_names it) (map def_name (mod_defs im)).
Proof. exact config_imports. Qed.
Print Assumptions C16_imports_resolve.

(** and for cosmos if the module names are distinct.  Missing for C16: bundles
    with two modules of the same name in the cosmos command. *)
Theorem C16_imports_resolve_partial : forall input b m it,
  Forall (fun m => grammatical m = true) input -> NoDup (map mod_name input) ->
  build_from_cosmos_config input = Ok b ->
  In m input -> In it (mod_imports m) ->
  exists im, In im input /\ mod_name im = imp_module it
    /\ incl (imp_names it) (map def_name (mod_defs im)).
Proof. exact cosmos_imports. Qed.
Print Assumptions C16_imports_resolve_partial.

(** Otherwise cosmos accepts imports from modules that do not exist. *)
Definition twice : list module :=
  [mkmodule "m" None [mkimport ["Ghost"] "nowhere" None] None
     [DSequence "S" None [mkmember "a" (TName "Ghost") None None]];
   mkmodule "m" None [] None [DSimple "T" TBoolean None]].

Theorem C16_imports_resolve_refuted :
  exists input b m it, Forall (fun m => grammatical m = true) input
    /\ build_from_cosmos_config input = Ok b
    /\ In m input /\ In it (mod_imports m)
    /\ ~ In (imp_module it) (map mod_name input)
    /\ (forall n, In n (imp_names it) -> ~ In n (map def_name (definitions input))).
Proof.
  exists twice. eexists. exists (nth 0 twice (mkmodule "" None [] None [])).
  exists (mkimport ["Ghost"] "nowhere" None).
  split; [repeat constructor|]. split; [vm_compute; reflexivity|].
  split; [simpl; auto|]. split; [simpl; auto|].
  split; [simpl; intuition discriminate|].
  intros n [<-|[]]. simpl. intuition discriminate.
Qed.
Print Assumptions C16_imports_resolve_refuted.

(** C17: type names are unique in a bundle, whatever the command. *)
Theorem C17_type_names_unique : forall names input b,
  build_from_config names input = Ok b \/ build_from_cosmos_config input = Ok b ->
  NoDup (map def_name (flat_map mod_defs input)).
Proof.
  exact (fun names input b H =>
    match H with or_introl a => config_names _ _ _ a | or_intror a => cosmos_names _ _ a end).
Qed.
Print Assumptions C17_type_names_unique.

(** C18 is false of the cosmos command; *)
Theorem C18_module_names_unique_refuted :
  exists input b, Forall (fun m => grammatical m = true) input
    /\ build_from_cosmos_config input = Ok b /\ ~ NoDup (map mod_name input).
Proof.
  exists twice. eexists. split; [repeat constructor|]. split; [vm_compute; reflexivity|].
  intros H. inversion H as [|? ? Hx _]; subst. apply Hx. left. reflexivity.
Qed.
Print Assumptions C18_module_names_unique_refuted.

(** it holds of the others.  Missing for C18: the cosmos command. *)
Theorem C18_module_names_unique_partial : forall names input b,
  build_from_config names input = Ok b -> NoDup (map mod_name input).
Proof. exact (fun names input b H => proj1 (config_module_names names input b H)). Qed.
Print Assumptions C18_module_names_unique_partial.

(** C19: --asn1-modules names exactly the modules read, without repetition; *)
Theorem C19_listed_modules : forall names input b,
  build_from_config names input = Ok b ->
  NoDup (map mod_name input) /\ NoDup names
  /\ (forall n, In n names <-> In n (map mod_name input)).
Proof. exact config_module_names. Qed.
Print Assumptions C19_listed_modules.

(** in particular leaving one out is an error. *)
Theorem C19_subset_rejected : forall names input n,
  In n (map mod_name input) -> ~ In n names ->
  forall b, build_from_config names input <> Ok b.
Proof. exact config_missing. Qed.
Print Assumptions C19_subset_rejected.

Example C19_subset :
  build_from_config ["ccsds-headers"; "cfe-headers"; "simple-types"] sample_modules
  = Err ConsistencyError.
Proof. vm_compute. reflexivity. Qed.

(** C20.  Full statement: [clause_keys_exist] for every clause of a sequence
    member in an accepted bundle.  False: clauses on built-in types are
    accepted unseen. *)
Definition builtin_clause : list module :=
  [mkmodule "m" None [] None
     [DSequence "S" None
        [mkmember "a" (TInteger (Some (0, 7)%Z)) None (Some (WC None [WI "no-such-key" (VInt 3) None]))]]].

Theorem C20_clause_keys_exist_refuted :
  exists names input b n c ms k w, Forall (fun m => grammatical m = true) input
    /\ build_from_config names input = Ok b
    /\ In (DSequence n c ms) (definitions input) /\ In k ms /\ m_with k = Some w
    /\ ~ clause_keys_exist (definitions input) (m_type k) w.
Proof.
  exists ["m"], builtin_clause. eexists. exists "S", None. eexists. eexists. eexists.
  split; [repeat constructor|]. split; [vm_compute; reflexivity|].
  split; [left; reflexivity|]. split; [left; reflexivity|]. split; [reflexivity|].
  intros H. inversion H; discriminate.
Qed.
Print Assumptions C20_clause_keys_exist_refuted.

(** What holds: every clause, at every depth, has only keys of the sequence
    type it constrains, or constrains a built-in type.  Missing for C20: the
    second case. *)
Theorem C20_clause_keys_exist_partial : forall names input b n c ms k w,
  Forall (fun m => grammatical m = true) input -> build_from_config names input = Ok b ->
  In (DSequence n c ms) (definitions input) -> In k ms -> m_with k = Some w ->
  clause_valid (definitions input) (m_type k) w.
Proof. exact config_clauses. Qed.
Print Assumptions C20_clause_keys_exist_partial.

(** A key that is not a member of the constrained sequence is an error. *)
Theorem C20_foreign_key_rejected : forall names input n c ms k t n' c' ms' cm l key v kc,
  Forall (fun m => grammatical m = true) input ->
  In (DSequence n c ms) (definitions input) -> In k ms -> m_type k = t ->
  m_with k = Some (WC cm l) ->
  element t = TName n' -> In (DSequence n' c' ms') (definitions input) ->
  In (WI key v kc) l -> ~ In key (map m_key ms') ->
  forall b, build_from_config names input <> Ok b.
Proof. exact foreign_key_rejected. Qed.
Print Assumptions C20_foreign_key_rejected.

Definition foreign_key (key : string) : list module :=
  [mkmodule "m" None [] None
     [DSequence "S" None
        [mkmember "a" (TName "T") None (Some (WC None [WI "x" (VInt 1) None; WI key (VInt 3) None]))];
      DSequence "T" None
        [mkmember "x" TBoolean None None; mkmember "y" TBoolean None None]]].
Example C20_foreign :
  build_from_config ["m"] (foreign_key "z") = Err ConsistencyError
  /\ exists b, build_from_config ["m"] (foreign_key "y") = Ok b.
Proof. split; [vm_compute; reflexivity | eexists; vm_compute; reflexivity]. Qed.

(** Nested clauses are covered: the sample has clauses three levels deep. *)
Example C20_sample :
  exists b n c ms k w, build_from_config sample_names sample_modules = Ok b
    /\ In (DSequence n c ms) (definitions sample_modules) /\ In k ms /\ m_with k = Some w.
Proof.
  eexists. exists "Sandbox-hk-pc". eexists. eexists. eexists. eexists.
  split; [vm_compute; reflexivity|].
  split; [simpl; do 11 right; left; reflexivity|].
  split; [left; reflexivity | reflexivity].
Qed.

(** C21 is false: values are not compared with the range of the component. *)
Theorem C21_values_in_range_refuted :
  exists names input b c ms k key v cm lo hi x,
    Forall (fun m => grammatical m = true) input
    /\ build_from_config names input = Ok b
    /\ In (DSequence "T" c ms) (definitions input)
    /\ In x ms /\ m_key x = key /\ m_type x = TInteger (Some (lo, hi))
    /\ (exists d l, In d (definitions input) /\ In k (members_of d) /\ m_type k = TName "T"
          /\ m_with k = Some (WC cm l) /\ In (WI key (VInt v) None) l)
    /\ ~ (lo <= v <= hi)%Z.
Proof.
  exists ["m"],
    [mkmodule "m" None [] None
      [DSequence "S" None
         [mkmember "a" (TName "T") None (Some (WC None [WI "x" (VInt 1000) None]))];
       DSequence "T" None [mkmember "x" (TInteger (Some (0, 7)%Z)) None None]]].
  eexists. exists None, [mkmember "x" (TInteger (Some (0, 7)%Z)) None None].
  exists (mkmember "a" (TName "T") None (Some (WC None [WI "x" (VInt 1000) None]))).
  exists "x", 1000%Z, None, 0%Z, 7%Z, (mkmember "x" (TInteger (Some (0, 7)%Z)) None None).
  split; [repeat constructor|]. split; [vm_compute; reflexivity|].
  split; [simpl; auto|]. split; [simpl; auto|]. split; [reflexivity|]. split; [reflexivity|].
  split; [|lia].
  exists (DSequence "S" None
         [mkmember "a" (TName "T") None (Some (WC None [WI "x" (VInt 1000) None]))]).
  eexists. repeat split; try reflexivity; simpl; auto.
Qed.
Print Assumptions C21_values_in_range_refuted.

(** C47: the recorded users of a type, *)
Theorem C47_recorded_users : forall names input b,
  Forall (fun m => grammatical m = true) input -> build_from_config names input = Ok b ->
  NoDup (map fst (b_uses b))
  /\ forall s x, (exists l, In (s, l) (b_uses b) /\ In x l) <->
       exists m, In m input /\ x = mod_name m /\ uses_type m s.
Proof. exact recorded_users. Qed.
Print Assumptions C47_recorded_users.

(** and the note in the generated header: it is there exactly if the type has
    users, and names them in alphabetical order. *)
Theorem C47_note : forall names input b n t,
  Forall (fun m => grammatical m = true) input -> build_from_config names input = Ok b ->
  ((forall m, In m input -> ~ uses_type m n) /\ cfs_note b n t = Ok None)
  \/ exists users,
       users <> [] /\ NoDup users
       /\ LocallySorted (fun x y => String.leb x y = true) users
       /\ (forall x, In x users <-> exists m, In m input /\ x = mod_name m /\ uses_type m n)
       /\ cfs_note b n t =
            bind (simple_size t) (fun s =>
              Ok (Some ("// NOTE: The simple type '" ++ n ++ "' has been generated to a C "
                ++ (if existsb (Z.eqb s) [8; 16; 32; 64]%Z then "builtin" else "bitfield")
                ++ " type and is used directly in "
                ++ String.concat ", " (map (fun u => "'" ++ u ++ "'") users)))).
Proof. exact note_text. Qed.
Print Assumptions C47_note.

Example C47_sample :
  exists b, build_from_config sample_names sample_modules = Ok b
    /\ cfs_note b "Uint16-t" (TInteger (Some (0, 65535)%Z))
       = Ok (Some "// NOTE: The simple type 'Uint16-t' has been generated to a C builtin type and is used directly in 'ccsds-headers', 'cfe-headers'")
    /\ cfs_note b "Real-range" TBoolean = Ok None.
Proof. eexists. repeat split; vm_compute; reflexivity. Qed.
