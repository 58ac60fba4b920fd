From Coq Require Import Lia.
(** * Property C88: the values of COSMOS items, whatever the clauses say *)
From Verif Require Import Base PyNum Ast Size Bundle GenCosmos Main Spec_Enum Spec_Grammar Spec_Num Spec_Check
  Spec_Bundle Spec_Size Spec_Cosmos Spec_Cosmos_runs Spec_History Last_proofs History_proofs History_runs_proofs Samples Props_Bundle Props_Cosmos Props_Cosmos_runs.
Open Scope string_scope.

(** Every item of every message shows the value it is given by the rule of
    Spec_History, which determines all values. *)
Theorem C88_values : forall fuel mn msgs target input fs fs', Forall (fun m => grammatical m = true) input ->
  run fuel (GenerateCosmos mn msgs target) input fs = (fs', Ok tt) ->
  exists ms ts, Forall2 same_module input ms
    /\ folder_get fs' (target ++ ".txt")
       = Some (match folder_get fs (target ++ ".txt") with Some old => old | None => "" end ++ text_of_run ts)
    /\ ((msgs = [] /\ ts = [] /\ ~ In mn (map mod_name ms))
        \/ exists i m oss hs, first_named ms i m /\ mod_name m = mn
           /\ messages_occur ms i m 0 msgs oss /\ handed_on (concat oss) hs
           /\ texts_of_messages m target hs msgs oss ts
           /\ forall oss' hs', messages_occur ms i m 0 msgs oss' -> handed_on (concat oss') hs' -> oss' = oss /\ hs' = hs).
Proof. exact run_history. Qed.
Print Assumptions C88_values.

(** The messages that come after a message do not change its text. *)
Theorem C88_earlier : forall fuel mn msgs more target input fs fs',
  run fuel (GenerateCosmos mn (msgs ++ more) target) input fs = (fs', Ok tt) ->
  exists fs1 ts ts', run fuel (GenerateCosmos mn msgs target) input fs = (fs1, Ok tt)
    /\ length ts = length msgs
    /\ folder_get fs1 (target ++ ".txt")
       = Some (match folder_get fs (target ++ ".txt") with Some old => old | None => "" end ++ text_of_run ts)
    /\ folder_get fs' (target ++ ".txt")
       = Some (match folder_get fs (target ++ ".txt") with Some old => old | None => "" end ++ text_of_run (ts ++ ts')).
Proof. exact run_prefix. Qed.
Print Assumptions C88_earlier.

(** The cosmos command succeeds exactly if the values of the application
    process identifiers are numbers, apart from what C61 asks for. *)
Theorem C88_succeeds : forall mn msgs target input fs, Forall (fun m => grammatical m = true) input ->
  (forall fuel fs', run fuel (GenerateCosmos mn msgs target) input fs = (fs', Ok tt) -> cosmos_runs mn msgs input)
  /\ (cosmos_runs mn msgs input -> exists F, forall fuel, (F <= fuel)%nat ->
        exists fs', run fuel (GenerateCosmos mn msgs target) input fs = (fs', Ok tt)).
Proof. exact cosmos_runs_iff. Qed.
Print Assumptions C88_succeeds.

(** C50 for cosmos, also if several modules have one name. *)
Theorem C50_cosmos_any_names : forall input, Forall (fun m => grammatical m = true) input ->
  ((exists b, build_from_cosmos_config input = Ok b) <->
   Forall module_valid input /\ last_imports_resolve input /\ clauses_valid (definitions input)
   /\ NoDup (map def_name (definitions input))).
Proof. exact cosmos_accepted_any. Qed.
Print Assumptions C50_cosmos_any_names.

(** Accepted, though an import of the first module leads nowhere. *)
Example C50_twice_sample : Forall (fun m => grammatical m = true) twice /\ last_imports_resolve twice /\ ~ imports_resolve twice.
Proof.
  assert (G : Forall (fun m => grammatical m = true) twice) by (repeat constructor).
  split; [exact G|]. split.
  - apply (C50_cosmos_any_names twice G). eexists. vm_compute. reflexivity.
  - intros H. destruct (H _ _ (or_introl eq_refl) (or_introl eq_refl)) as (im & [<-|[<-|[]]] & E & _); discriminate.
Qed.

(** In the example of C61 a clause of "First" fixes the application process
    identifier of "Second" too: the second message is to be generated after the
    first one, but not alone. *)
Definition numbered (z : Z) : asn_type := TInteger (Some (0, z))%Z.
Definition leak_occurrences (top : option wcomps) (s : site) (a : nat) : list occurrence :=
  let pd := mkmember "d" (TName "Detail") None top in
  let pp := mkmember "p" (TName "Point") None (Some (WC None [WI "x" (VInt 1) None])) in
  let x := mkmember "x" (numbered 7) None None in
  let y := mkmember apid (numbered 7) None None in
  [mkocc None s pd None;
   mkocc (Some a) (0, 2, 0)%nat pp None;
   mkocc (Some (S a)) (0, 3, 0)%nat x (Some (mkleaf [pd; pp] x (numbered 7) A_UINT 3 []));
   mkocc (Some (S a)) (0, 3, 1)%nat y (Some (mkleaf [pd; pp] y (numbered 7) A_UINT 3 []))].
Definition leak_clause : wcomps := WC None [WI "p" (VWith (WC None [WI apid (VInt 2) None])) None].

Lemma leak_defined : forall d df, nth_error (mod_defs leak_apid) d = Some df -> defined_at [leak_apid] 0 0 d df.
Proof. intros d df H. split; [constructor|]. exists leak_apid. auto. Qed.

Lemma leak_item : item_type [leak_apid] 0 (numbered 7) (numbered 7) A_UINT 3 [].
Proof. apply item_number; [reflexivity|discriminate|]. apply written_unsigned; [lia|exact (Enum_proofs.bit_length_least 7 ltac:(lia))]. Qed.

Lemma leak_members : forall top d a, members_occur [leak_apid] 0 [] None a 0 d 0 [mkmember "d" (TName "Detail") None top]
  (leak_occurrences top (0, d, 0)%nat a).
Proof.
  intros top d a. eapply (mo_nested _ _ _ _ _ _ _ _ _ _ "Detail" None _ 0 2 [_; _; _] []); [reflexivity|apply leak_defined; reflexivity| |apply mo_nil].
  eapply (mo_nested _ _ _ _ _ _ _ _ _ _ "Point" None _ 0 3 [_; _] []); [reflexivity|apply leak_defined; reflexivity| |apply mo_nil].
  apply mo_leaf; [exact leak_item|]. apply mo_leaf; [exact leak_item|apply mo_nil].
Qed.

Definition leak_messages : list (list occurrence) :=
  [leak_occurrences (Some leak_clause) (0, 0, 0)%nat 0; leak_occurrences None (0, 1, 0)%nat 4].
Definition leak_handed : list (list witem) :=
  [wc_items leak_clause; [WI "x" (VInt 1) None; WI apid (VInt 2) None]; []; [];
   []; [WI "x" (VInt 1) None; WI apid (VInt 2) None]; []; []].
Lemma leak_history : messages_occur [leak_apid] 0 leak_apid 0 ["First"; "Second"] leak_messages /\ handed_on (concat leak_messages) leak_handed.
Proof.
  split.
  - eapply (mso_cons _ _ _ _ _ None _ 0); [reflexivity|apply leak_members|].
    eapply (mso_cons _ _ _ _ _ None _ 1); [reflexivity|apply leak_members|apply mso_nil].
  - split; [reflexivity|]. intros n o H. do 8 (destruct n as [|n]; [injection H as <-; reflexivity|]). destruct n; discriminate.
Qed.

Example C88_sample : exists oss hs,
  messages_occur [leak_apid] 0 leak_apid 0 ["First"; "Second"] oss /\ handed_on (concat oss) hs
  /\ map (fun o => (m_key (oc_member o), value_of hs o)) (filter is_leaf (concat oss))
     = [("x", Some (VInt 1)); (apid, Some (VInt 2)); ("x", Some (VInt 1)); (apid, Some (VInt 2))]
  /\ cosmos_runs "m" ["First"; "Second"] [leak_apid].
Proof.
  exists leak_messages, leak_handed. destruct leak_history as (A & B). split; [exact A|]. split; [exact B|]. split; [reflexivity|].
  assert (R : exists fs, run 9 (GenerateCosmos "m" ["First"; "Second"] "out") [leak_apid] [] = (fs, Ok tt)) by (eexists; vm_compute; reflexivity).
  destruct R as (fs & R). refine (proj1 (C88_succeeds _ _ _ _ _ _) _ _ R). repeat constructor; vm_compute; reflexivity.
Qed.

Example C88_alone_sample : ~ cosmos_runs "m" ["Second"] [leak_apid].
Proof.
  intros H. destruct (proj2 (C88_succeeds "m" ["Second"] "out" [leak_apid] [] ltac:(repeat constructor; vm_compute; reflexivity)) H) as (F & HF). clear H.
  destruct (HF (Nat.max F 9) (Nat.le_max_l _ _)) as (fs & R).
  assert (N : exists f, Nat.max F 9 = (9 + f)%nat) by (exists (Nat.max F 9 - 9)%nat; lia). destruct N as (f & N). rewrite N in R.
  vm_compute in R. discriminate.
Qed.
